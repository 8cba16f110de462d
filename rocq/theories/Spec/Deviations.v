(** Where the schema objects of /repo are not what the ASN.1 modules of the RFCs say: every
    type that fails [has_wire] or [has_bounds], with a value showing the difference.  The
    values are checked in Spec/Checked.v. *)
From Coq Require Import List String ZArith NArith Bool.
From Verif Require Import Asn1.Types Load.Checked Spec.X680 Spec.Agree.
Import ListNotations.
Open Scope string_scope.
Open Scope list_scope.
Open Scope N_scope.

Definition newyear : list N := chars "20200101000000Z".
Definition utc_newyear : list N := chars "200101000000Z".
(** rfc2459.py and the modules that re-export its types. *)
Definition of_rfc2459 (l : list (string * aval)) : list (name2 * aval) :=
  flat_map (fun m => map (fun e => ((m, fst e), snd e)) l) ["rfc2459"; "rfc2314"; "rfc2315"; "rfc2511"; "rfc5208"].

(** Types of another encoding.  The value is encoded differently; or, where it is not a value
    of the RFC's type (PresentationAddress, ExtendedNetworkAddress, RC2CBCParameter), it is
    encoded nevertheless. *)
Definition deviations : list (name2 * aval) := of_rfc2459 [
  ("IssuingDistributionPoint", VSeq [None; None; None; None; None]);
  ("ExtendedNetworkAddress", VAlt 1 (VSeq [None; None; None; None]));
  ("PresentationAddress", VSeq [None; None; None; None]);
  ("DomainParameters", VSeq [Some (VInt 0); Some (VInt 0); Some (VInt 0); None; None])] ++ [
  (("rfc1157", "Message"), VSeq [Some (VInt 0); Some (VOcts []); Some (VAlt 4 (VSeq [Some (VOid [1; 2; 3]); Some (VAlt
    0 (VOcts [1; 1; 1; 1])); Some (VInt 0); Some (VInt 0); Some (VInt 0); Some (VList [])]))]);
  (("rfc1157", "Pdus"), VAlt 4 (VSeq [Some (VOid [1; 2; 3]); Some (VAlt 0 (VOcts [1; 1; 1; 1])); Some (VInt 0); Some
    (VInt 0); Some (VInt 0); Some (VList [])]));
  (("rfc1157", "TrapPDU"), VSeq [Some (VOid [1; 2; 3]); Some (VAlt 0 (VOcts [1; 1; 1; 1])); Some (VInt 0); Some (VInt
    0); Some (VInt 0); Some (VList [])]);
  (("rfc2251", "LDAPMessage"), VSeq [Some (VInt 0); Some (VAlt 2 VNull); None]);
  (("rfc2251", "AbandonRequest"), VInt 0);
  (("rfc2251", "DelRequest"), VOcts []);
  (("rfc2251", "UnbindRequest"), VNull);
  (("rfc2315", "SignedData"), VSeq [Some (VInt 0); Some (VList []); Some (VSeq [Some (VOid [1; 2; 3]); None]); None;
    None; Some (VList [])]);
  (("rfc2437", "RSAES_OAEP_params"), VSeq [None; None; None]);
  (("rfc2511", "CertReqMessages"), VList [VSeq [Some (VSeq [Some (VInt 0); Some (VSeq [None; None; None; None; None;
    None; None; None; None; None]); None]); Some (VAlt 1 (VSeq [Some (VSeq [Some (VAlt 0 (VAlt 0 (VSeq [Some (VOid
    [1; 2; 3]); Some (VOcts [5; 0])]))); Some (VSeq [Some (VSeq [Some (VOid [1; 2; 3]); None]); Some (VBits [])])]);
    Some (VSeq [Some (VOid [1; 2; 3]); None]); Some (VBits [])])); None]]);
  (("rfc2511", "CertReqMsg"), VSeq [Some (VSeq [Some (VInt 0); Some (VSeq [None; None; None; None; None; None; None;
    None; None; None]); None]); Some (VAlt 1 (VSeq [Some (VSeq [Some (VAlt 0 (VAlt 0 (VSeq [Some (VOid [1; 2; 3]);
    Some (VOcts [5; 0])]))); Some (VSeq [Some (VSeq [Some (VOid [1; 2; 3]); None]); Some (VBits [])])]); Some (VSeq
    [Some (VOid [1; 2; 3]); None]); Some (VBits [])])); None]);
  (("rfc2511", "ProofOfPossession"), VAlt 1 (VSeq [Some (VSeq [Some (VAlt 0 (VAlt 0 (VSeq [Some (VOid [1; 2; 3]); Some
    (VOcts [5; 0])]))); Some (VSeq [Some (VSeq [Some (VOid [1; 2; 3]); None]); Some (VBits [])])]); Some (VSeq [Some
    (VOid [1; 2; 3]); None]); Some (VBits [])]));
  (("rfc2511", "POPOSigningKey"), VSeq [Some (VSeq [Some (VAlt 0 (VAlt 0 (VSeq [Some (VOid [1; 2; 3]); Some (VOcts [5;
    0])]))); Some (VSeq [Some (VSeq [Some (VOid [1; 2; 3]); None]); Some (VBits [])])]); Some (VSeq [Some (VOid [1;
    2; 3]); None]); Some (VBits [])]);
  (("rfc2511", "POPOSigningKeyInput"), VSeq [Some (VAlt 0 (VAlt 0 (VSeq [Some (VOid [1; 2; 3]); Some (VOcts [5;
    0])]))); Some (VSeq [Some (VSeq [Some (VOid [1; 2; 3]); None]); Some (VBits [])])]);
  (("rfc2511", "PKIPublicationInfo"), VSeq [Some (VInt 0); Some (VList [VSeq [Some (VInt 0); Some (VAlt 0 (VSeq [Some
    (VOid [1; 2; 3]); Some (VOcts [5; 0])]))]])]);
  (("rfc2511", "SinglePubInfo"), VSeq [Some (VInt 0); Some (VAlt 0 (VSeq [Some (VOid [1; 2; 3]); Some (VOcts [5;
    0])]))]);
  (("rfc2511", "PKIArchiveOptions"), VAlt 0 (VAlt 1 (VSeq [Some (VInt 0); Some (VSeq [Some (VList [VAlt 0 (VSeq [Some
    (VSeq [None; Some (VInt 0); Some (VSeq [Some (VOid [1; 2; 3]); None]); Some (VAlt 0 (VList [])); Some (VSeq
    [Some (VAlt 0 (VText utc_newyear)); Some (VAlt 0 (VText utc_newyear))]); Some (VAlt 0 (VList [])); Some (VSeq
    [Some (VSeq [Some (VOid [1; 2; 3]); None]); Some (VBits [])]); None; None; None]); Some (VSeq [Some (VOid [1; 2;
    3]); None]); Some (VBits [])])]); None]); Some (VList [VAlt 0 (VSeq [Some (VInt 0); Some (VAlt 0 (VSeq [Some
    (VAlt 0 (VList [])); Some (VInt 0)])); Some (VSeq [Some (VOid [1; 2; 3]); None]); Some (VOcts [])])]); Some
    (VSeq [Some (VOid [1; 2; 3]); Some (VSeq [Some (VOid [1; 2; 3]); None]); None]); None])));
  (("rfc2511", "EncryptedKey"), VAlt 1 (VSeq [Some (VInt 0); Some (VSeq [Some (VList [VAlt 0 (VSeq [Some (VSeq [None;
    Some (VInt 0); Some (VSeq [Some (VOid [1; 2; 3]); None]); Some (VAlt 0 (VList [])); Some (VSeq [Some (VAlt 0
    (VText utc_newyear)); Some (VAlt 0 (VText utc_newyear))]); Some (VAlt 0 (VList [])); Some (VSeq [Some (VSeq
    [Some (VOid [1; 2; 3]); None]); Some (VBits [])]); None; None; None]); Some (VSeq [Some (VOid [1; 2; 3]);
    None]); Some (VBits [])])]); None]); Some (VList [VAlt 0 (VSeq [Some (VInt 0); Some (VAlt 0 (VSeq [Some (VAlt 0
    (VList [])); Some (VInt 0)])); Some (VSeq [Some (VOid [1; 2; 3]); None]); Some (VOcts [])])]); Some (VSeq [Some
    (VOid [1; 2; 3]); Some (VSeq [Some (VOid [1; 2; 3]); None]); None]); None]));
  (("rfc2511", "OldCertId"), VSeq [Some (VAlt 0 (VSeq [Some (VOid [1; 2; 3]); Some (VOcts [5; 0])])); Some (VInt 0)]);
  (("rfc2511", "CertId"), VSeq [Some (VAlt 0 (VSeq [Some (VOid [1; 2; 3]); Some (VOcts [5; 0])])); Some (VInt 0)]);
  (("rfc2511", "GeneralName"), VAlt 0 (VSeq [Some (VOid [1; 2; 3]); Some (VOcts [5; 0])]));
  (("rfc2560", "OCSPRequest"), VSeq [Some (VSeq [Some (VInt 0); Some (VAlt 0 (VSeq [Some (VOid [1; 2; 3]); Some (VOcts
    [5; 0])])); Some (VList []); Some (VList [VSeq [Some (VOid [1; 2; 3]); None; Some (VOcts [])]])]); None]);
  (("rfc2560", "TBSRequest"), VSeq [Some (VInt 0); Some (VAlt 0 (VSeq [Some (VOid [1; 2; 3]); Some (VOcts [5; 0])]));
    Some (VList []); Some (VList [VSeq [Some (VOid [1; 2; 3]); None; Some (VOcts [])]])]);
  (("rfc2560", "GeneralName"), VAlt 0 (VSeq [Some (VOid [1; 2; 3]); Some (VOcts [5; 0])]));
  (("rfc2634", "EquivalentLabels"), VList [VSeq [Some (VOid [1; 2; 3]); Some (VInt 0); Some (VAlt 0 (VText [65]));
    Some (VList [VSeq [Some (VOid [1; 2; 3]); Some (VOcts [5; 0])]])]]);
  (("rfc2634", "ESSSecurityLabel"), VSeq [Some (VOid [1; 2; 3]); Some (VInt 0); Some (VAlt 0 (VText [65])); Some
    (VList [VSeq [Some (VOid [1; 2; 3]); Some (VOcts [5; 0])]])]);
  (("rfc2634", "SecurityCategories"), VList [VSeq [Some (VOid [1; 2; 3]); Some (VOcts [5; 0])]]);
  (("rfc2634", "SecurityCategory"), VSeq [Some (VOid [1; 2; 3]); Some (VOcts [5; 0])]);
  (("rfc3280", "DirectoryString"), VAlt 0 (VText [65]));
  (("rfc3281", "Clearance"), VSeq [Some (VOid [1; 2; 3]); None; Some (VList [VSeq [Some (VOid [1; 2; 3]); Some (VOcts
    [5; 0])]])]);
  (("rfc3281", "SecurityCategory"), VSeq [Some (VOid [1; 2; 3]); Some (VOcts [5; 0])]);
  (("rfc3370", "PBKDF2_params"), VSeq [Some (VAlt 0 (VOcts [])); Some (VInt 1); None; Some (VSeq [Some (VOid [1; 2;
    840; 113549; 2; 7]); Some (VOcts [5; 0])])]);
  (("rfc3370", "RC2CBCParameter"), VSeq [None; Some (VOcts [])]);
  (("rfc3447", "RSAES_OAEP_params"), VSeq [None; None; None]);
  (("rfc3560", "RSAES_OAEP_params"), VSeq [Some (VSeq [Some (VOid [1; 3; 14; 3; 2; 26]); Some (VOcts [5; 0])]); None;
    None]);
  (("rfc4055", "RSASSA_PSS_params"), VSeq [Some (VSeq [Some (VOid [1; 3; 14; 3; 2; 26]); Some (VOcts [5; 0])]); None;
    None; None]);
  (("rfc4055", "RSAES_OAEP_params"), VSeq [Some (VSeq [Some (VOid [1; 3; 14; 3; 2; 26]); Some (VOcts [5; 0])]); None;
    None]);
  (("rfc4108", "FirmwarePackageInfo"), VSeq [None; None]);
  (("rfc4210", "PKIMessages"), VList [VSeq [Some (VSeq [Some (VInt 1); Some (VAlt 3 (VSeq [Some (VSeq [None; None;
    None; None; None; None; None; None; None]); Some (VList [VSeq [Some (VText [65]); Some (VText [65])]]); Some
    (VList [VSeq [Some (VInt 0); Some (VOcts [5; 0])]])])); Some (VAlt 0 (VSeq [Some (VOid [1; 2; 3]); Some (VOcts
    [5; 0])])); None; None; None; None; None; None; None; None; None]); Some (VAlt 0 (VList [VSeq [Some (VSeq [Some
    (VInt 0); Some (VSeq [None; None; None; None; None; None; None; None; None; None]); None]); None; None]]));
    None; None]]);
  (("rfc4210", "PKIMessage"), VSeq [Some (VSeq [Some (VInt 1); Some (VAlt 3 (VSeq [Some (VSeq [None; None; None; None;
    None; None; None; None; None]); Some (VList [VSeq [Some (VText [65]); Some (VText [65])]]); Some (VList [VSeq
    [Some (VInt 0); Some (VOcts [5; 0])]])])); Some (VAlt 0 (VSeq [Some (VOid [1; 2; 3]); Some (VOcts [5; 0])]));
    None; None; None; None; None; None; None; None; None]); Some (VAlt 0 (VList [VSeq [Some (VSeq [Some (VInt 0);
    Some (VSeq [None; None; None; None; None; None; None; None; None; None]); None]); None; None]])); None; None]);
  (("rfc4210", "ProtectedPart"), VSeq [Some (VSeq [Some (VInt 1); Some (VAlt 3 (VSeq [Some (VSeq [None; None; None;
    None; None; None; None; None; None]); Some (VList [VSeq [Some (VText [65]); Some (VText [65])]]); Some (VList
    [VSeq [Some (VInt 0); Some (VOcts [5; 0])]])])); Some (VAlt 0 (VSeq [Some (VOid [1; 2; 3]); Some (VOcts [5;
    0])])); None; None; None; None; None; None; None; None; None]); Some (VAlt 0 (VList [VSeq [Some (VSeq [Some
    (VInt 0); Some (VSeq [None; None; None; None; None; None; None; None; None; None]); None]); None; None]]))]);
  (("rfc4210", "PKIHeader"), VSeq [Some (VInt 1); Some (VAlt 3 (VSeq [Some (VSeq [None; None; None; None; None; None;
    None; None; None]); Some (VList [VSeq [Some (VText [65]); Some (VText [65])]]); Some (VList [VSeq [Some (VInt
    0); Some (VOcts [5; 0])]])])); Some (VAlt 0 (VSeq [Some (VOid [1; 2; 3]); Some (VOcts [5; 0])])); None; None;
    None; None; None; None; None; None; None]);
  (("rfc4210", "PKIBody"), VAlt 0 (VList [VSeq [Some (VSeq [Some (VInt 0); Some (VSeq [None; None; None; None; None;
    None; None; None; None; None]); None]); Some (VAlt 1 (VSeq [Some (VSeq [Some (VAlt 0 (VAlt 0 (VSeq [Some (VOid
    [1; 2; 3]); Some (VOcts [5; 0])]))); Some (VSeq [Some (VSeq [Some (VOid [1; 2; 3]); None]); Some (VBits [])])]);
    Some (VSeq [Some (VOid [1; 2; 3]); None]); Some (VBits [])])); None]]));
  (("rfc4210", "OOBCertHash"), VSeq [Some (VSeq [Some (VOid [1; 2; 3]); None]); Some (VSeq [Some (VAlt 0 (VSeq [Some
    (VOid [1; 2; 3]); Some (VOcts [5; 0])])); Some (VInt 0)]); Some (VBits [])]);
  (("rfc4210", "CertRepMessage"), VSeq [None; Some (VList [VSeq [Some (VInt 0); Some (VSeq [Some (VInt 0); None;
    None]); Some (VSeq [Some (VAlt 0 (VSeq [Some (VSeq [None; Some (VInt 0); Some (VSeq [Some (VOid [1; 2; 3]);
    None]); Some (VAlt 0 (VList [])); Some (VSeq [Some (VAlt 0 (VText utc_newyear)); Some (VAlt 0 (VText
    utc_newyear))]); Some (VAlt 0 (VList [])); Some (VSeq [Some (VSeq [Some (VOid [1; 2; 3]); None]); Some (VBits
    [])]); None; None; None]); Some (VSeq [Some (VOid [1; 2; 3]); None]); Some (VBits [])])); None; Some (VSeq [Some
    (VInt 0); Some (VList [VSeq [Some (VInt 0); Some (VAlt 0 (VSeq [Some (VOid [1; 2; 3]); Some (VOcts [5;
    0])]))]])])]); None]])]);
  (("rfc4210", "CertResponse"), VSeq [Some (VInt 0); Some (VSeq [Some (VInt 0); None; None]); Some (VSeq [Some (VAlt 0
    (VSeq [Some (VSeq [None; Some (VInt 0); Some (VSeq [Some (VOid [1; 2; 3]); None]); Some (VAlt 0 (VList []));
    Some (VSeq [Some (VAlt 0 (VText utc_newyear)); Some (VAlt 0 (VText utc_newyear))]); Some (VAlt 0 (VList []));
    Some (VSeq [Some (VSeq [Some (VOid [1; 2; 3]); None]); Some (VBits [])]); None; None; None]); Some (VSeq [Some
    (VOid [1; 2; 3]); None]); Some (VBits [])])); None; Some (VSeq [Some (VInt 0); Some (VList [VSeq [Some (VInt 0);
    Some (VAlt 0 (VSeq [Some (VOid [1; 2; 3]); Some (VOcts [5; 0])]))]])])]); None]);
  (("rfc4210", "KeyRecRepContent"), VSeq [Some (VSeq [Some (VInt 0); None; None]); None; None; Some (VList [VSeq [Some
    (VAlt 0 (VSeq [Some (VSeq [None; Some (VInt 0); Some (VSeq [Some (VOid [1; 2; 3]); None]); Some (VAlt 0 (VList
    [])); Some (VSeq [Some (VAlt 0 (VText utc_newyear)); Some (VAlt 0 (VText utc_newyear))]); Some (VAlt 0 (VList
    [])); Some (VSeq [Some (VSeq [Some (VOid [1; 2; 3]); None]); Some (VBits [])]); None; None; None]); Some (VSeq
    [Some (VOid [1; 2; 3]); None]); Some (VBits [])])); None; Some (VSeq [Some (VInt 0); Some (VList [VSeq [Some
    (VInt 0); Some (VAlt 0 (VSeq [Some (VOid [1; 2; 3]); Some (VOcts [5; 0])]))]])])]])]);
  (("rfc4210", "RevRepContent"), VSeq [Some (VList [VSeq [Some (VInt 0); None; None]]); Some (VList [VSeq [Some (VAlt
    0 (VSeq [Some (VOid [1; 2; 3]); Some (VOcts [5; 0])])); Some (VInt 0)]]); Some (VList [VSeq [Some (VSeq [None;
    Some (VSeq [Some (VOid [1; 2; 3]); None]); Some (VAlt 0 (VList [])); Some (VAlt 0 (VText utc_newyear)); None;
    None; None]); Some (VSeq [Some (VOid [1; 2; 3]); None]); Some (VBits [])]])]);
  (("rfc4210", "RevAnnContent"), VSeq [Some (VInt 0); Some (VSeq [Some (VAlt 0 (VSeq [Some (VOid [1; 2; 3]); Some
    (VOcts [5; 0])])); Some (VInt 0)]); Some (VText newyear); Some (VText newyear); None]);
  (("rfc4210", "CertifiedKeyPair"), VSeq [Some (VAlt 0 (VSeq [Some (VSeq [None; Some (VInt 0); Some (VSeq [Some (VOid
    [1; 2; 3]); None]); Some (VAlt 0 (VList [])); Some (VSeq [Some (VAlt 0 (VText utc_newyear)); Some (VAlt 0 (VText
    utc_newyear))]); Some (VAlt 0 (VList [])); Some (VSeq [Some (VSeq [Some (VOid [1; 2; 3]); None]); Some (VBits
    [])]); None; None; None]); Some (VSeq [Some (VOid [1; 2; 3]); None]); Some (VBits [])])); None; Some (VSeq [Some
    (VInt 0); Some (VList [VSeq [Some (VInt 0); Some (VAlt 0 (VSeq [Some (VOid [1; 2; 3]); Some (VOcts [5;
    0])]))]])])]);
  (("rfc5035", "EquivalentLabels"), VList [VSeq [Some (VOid [1; 2; 3]); Some (VInt 0); Some (VAlt 0 (VText [65]));
    Some (VList [VSeq [Some (VOid [1; 2; 3]); Some (VOcts [5; 0])]])]]);
  (("rfc5035", "ESSSecurityLabel"), VSeq [Some (VOid [1; 2; 3]); Some (VInt 0); Some (VAlt 0 (VText [65])); Some
    (VList [VSeq [Some (VOid [1; 2; 3]); Some (VOcts [5; 0])]])]);
  (("rfc5035", "SecurityCategories"), VList [VSeq [Some (VOid [1; 2; 3]); Some (VOcts [5; 0])]]);
  (("rfc5035", "SecurityCategory"), VSeq [Some (VOid [1; 2; 3]); Some (VOcts [5; 0])]);
  (("rfc5035", "SigningCertificateV2"), VSeq [Some (VList [VSeq [Some (VSeq [Some (VOid [2; 16; 840; 1; 101; 3; 4; 2;
    1]); None]); Some (VOcts []); None]]); None]);
  (("rfc5035", "ESSCertIDv2"), VSeq [Some (VSeq [Some (VOid [2; 16; 840; 1; 101; 3; 4; 2; 1]); None]); Some (VOcts
    []); None]);
  (("rfc5208", "PrivateKeyInfo"), VSeq [Some (VInt 0); Some (VSeq [Some (VOid [1; 2; 3]); None]); Some (VOcts []);
    Some (VList [VSeq [Some (VOid [1; 2; 3]); Some (VList [])]])]);
  (("rfc5208", "Attributes"), VList [VSeq [Some (VOid [1; 2; 3]); Some (VList [])]]);
  (("rfc5752", "MultipleSignatures"), VSeq [Some (VSeq [Some (VOid [1; 2; 3]); None]); Some (VSeq [Some (VOid [1; 2;
    3]); None]); Some (VSeq [Some (VSeq [Some (VOid [1; 2; 3]); None]); Some (VOcts [])]); Some (VSeq [Some (VSeq
    [Some (VOid [2; 16; 840; 1; 101; 3; 4; 2; 1]); None]); Some (VOcts []); None])]);
  (("rfc5755", "Clearance_rfc3281"), VSeq [Some (VOid [1; 2; 3]); None; Some (VList [VSeq [Some (VOid [1; 2; 3]); Some
    (VOcts [5; 0])]])]);
  (("rfc5755", "Clearance"), VSeq [Some (VOid [1; 2; 3]); None; Some (VList [VSeq [Some (VOid [1; 2; 3]); Some (VOcts
    [5; 0])]])]);
  (("rfc5755", "SecurityCategory"), VSeq [Some (VOid [1; 2; 3]); Some (VOcts [5; 0])]);
  (("rfc5913", "AuthorityClearanceConstraints"), VList [VSeq [Some (VOid [1; 2; 3]); None; Some (VList [VSeq [Some
    (VOid [1; 2; 3]); Some (VOcts [5; 0])]])]]);
  (("rfc6402", "CMCStatusInfoV2"), VSeq [Some (VInt 0); Some (VList [VAlt 0 (VInt 0)]); None; Some (VAlt 2 (VSeq [Some
    (VOid [1; 2; 3]); Some (VOcts [5; 0])]))]);
  (("rfc7906", "Classification"), VSeq [Some (VOid [1; 2; 3]); Some (VInt 0); Some (VAlt 0 (VText [65])); Some (VList
    [VSeq [Some (VOid [1; 2; 3]); Some (VOcts [5; 0])]])]);
  (("rfc7906", "ESSSecurityLabel"), VSeq [Some (VOid [1; 2; 3]); Some (VInt 0); Some (VAlt 0 (VText [65])); Some
    (VList [VSeq [Some (VOid [1; 2; 3]); Some (VOcts [5; 0])]])]);
  (("rfc7906", "SecurityCategories"), VList [VSeq [Some (VOid [1; 2; 3]); Some (VOcts [5; 0])]]);
  (("rfc8017", "RSASSA_PSS_params"), VSeq [Some (VSeq [Some (VOid [1; 3; 14; 3; 2; 26]); Some (VOcts [5; 0])]); None;
    None; None]);
  (("rfc8017", "RSAES_OAEP_params"), VSeq [Some (VSeq [Some (VOid [1; 3; 14; 3; 2; 26]); Some (VOcts [5; 0])]); None;
    None]);
  (("rfc8018", "PBKDF2_params"), VSeq [Some (VAlt 0 (VOcts [])); Some (VInt 1); None; Some (VSeq [Some (VOid [1; 2;
    840; 113549; 2; 7]); Some (VOcts [5; 0])])])].

(** Types of the same encoding with other bounds: the value is within the bounds of one, and
    outside those of the other. *)
Definition loose : list (name2 * aval) := of_rfc2459 [
  ("CertificateList", VSeq [Some (VSeq [None; Some (VSeq [Some (VOid [1; 2; 3]); None]); Some (VAlt 0 (VList [VList
    []])); Some (VAlt 0 (VText utc_newyear)); None; None; None]); Some (VSeq [Some (VOid [1; 2; 3]); None]); Some
    (VBits [])]);
  ("TBSCertList", VSeq [None; Some (VSeq [Some (VOid [1; 2; 3]); None]); Some (VAlt 0 (VList [VList []])); Some (VAlt
    0 (VText utc_newyear)); None; None; None]);
  ("Certificate", VSeq [Some (VSeq [None; Some (VInt 0); Some (VSeq [Some (VOid [1; 2; 3]); None]); Some (VAlt 0
    (VList [VList []])); Some (VSeq [Some (VAlt 0 (VText utc_newyear)); Some (VAlt 0 (VText utc_newyear))]); Some
    (VAlt 0 (VList [])); Some (VSeq [Some (VSeq [Some (VOid [1; 2; 3]); None]); Some (VBits [])]); None; None;
    None]); Some (VSeq [Some (VOid [1; 2; 3]); None]); Some (VBits [])]);
  ("TBSCertificate", VSeq [None; Some (VInt 0); Some (VSeq [Some (VOid [1; 2; 3]); None]); Some (VAlt 0 (VList [VList
    []])); Some (VSeq [Some (VAlt 0 (VText utc_newyear)); Some (VAlt 0 (VText utc_newyear))]); Some (VAlt 0 (VList
    [])); Some (VSeq [Some (VSeq [Some (VOid [1; 2; 3]); None]); Some (VBits [])]); None; None; None]);
  ("IssuerAltName", VList [VAlt 3 (VSeq [Some (VSeq [None; None; None; None; None; None; None; None; None]); Some
    (VList [VSeq [Some (VText [65]); Some (VText [65])]]); Some (VList [VSeq [Some (VInt 0); Some (VOcts [5;
    0])]])])]);
  ("SubjectAltName", VList [VAlt 3 (VSeq [Some (VSeq [None; None; None; None; None; None; None; None; None]); Some
    (VList [VSeq [Some (VText [65]); Some (VText [65])]]); Some (VList [VSeq [Some (VInt 0); Some (VOcts [5;
    0])]])])]);
  ("CertificateIssuer", VList [VAlt 3 (VSeq [Some (VSeq [None; None; None; None; None; None; None; None; None]); Some
    (VList [VSeq [Some (VText [65]); Some (VText [65])]]); Some (VList [VSeq [Some (VInt 0); Some (VOcts [5;
    0])]])])]);
  ("NameConstraints", VSeq [Some (VList [VSeq [Some (VAlt 3 (VSeq [Some (VSeq [None; None; None; None; None; None;
    None; None; None]); Some (VList [VSeq [Some (VText [65]); Some (VText [65])]]); Some (VList [VSeq [Some (VInt
    0); Some (VOcts [5; 0])]])])); None; None]]); None]);
  ("GeneralSubtrees", VList [VSeq [Some (VAlt 3 (VSeq [Some (VSeq [None; None; None; None; None; None; None; None;
    None]); Some (VList [VSeq [Some (VText [65]); Some (VText [65])]]); Some (VList [VSeq [Some (VInt 0); Some
    (VOcts [5; 0])]])])); None; None]]);
  ("GeneralSubtree", VSeq [Some (VAlt 3 (VSeq [Some (VSeq [None; None; None; None; None; None; None; None; None]);
    Some (VList [VSeq [Some (VText [65]); Some (VText [65])]]); Some (VList [VSeq [Some (VInt 0); Some (VOcts [5;
    0])]])])); None; None]);
  ("CRLDistPointsSyntax", VList [VSeq [Some (VAlt 0 (VList [VAlt 3 (VSeq [Some (VSeq [None; None; None; None; None;
    None; None; None; None]); Some (VList [VSeq [Some (VText [65]); Some (VText [65])]]); Some (VList [VSeq [Some
    (VInt 0); Some (VOcts [5; 0])]])])])); None; None]]);
  ("DistributionPoint", VSeq [Some (VAlt 0 (VList [VAlt 3 (VSeq [Some (VSeq [None; None; None; None; None; None; None;
    None; None]); Some (VList [VSeq [Some (VText [65]); Some (VText [65])]]); Some (VList [VSeq [Some (VInt 0); Some
    (VOcts [5; 0])]])])])); None; None]);
  ("DistributionPointName", VAlt 0 (VList [VAlt 3 (VSeq [Some (VSeq [None; None; None; None; None; None; None; None;
    None]); Some (VList [VSeq [Some (VText [65]); Some (VText [65])]]); Some (VList [VSeq [Some (VInt 0); Some
    (VOcts [5; 0])]])])]));
  ("AuthorityKeyIdentifier", VSeq [None; Some (VList [VAlt 3 (VSeq [Some (VSeq [None; None; None; None; None; None;
    None; None; None]); Some (VList [VSeq [Some (VText [65]); Some (VText [65])]]); Some (VList [VSeq [Some (VInt
    0); Some (VOcts [5; 0])]])])]); None]);
  ("AuthorityInfoAccessSyntax", VList [VSeq [Some (VOid [1; 2; 3]); Some (VAlt 3 (VSeq [Some (VSeq [None; None; None;
    None; None; None; None; None; None]); Some (VList [VSeq [Some (VText [65]); Some (VText [65])]]); Some (VList
    [VSeq [Some (VInt 0); Some (VOcts [5; 0])]])]))]]);
  ("AccessDescription", VSeq [Some (VOid [1; 2; 3]); Some (VAlt 3 (VSeq [Some (VSeq [None; None; None; None; None;
    None; None; None; None]); Some (VList [VSeq [Some (VText [65]); Some (VText [65])]]); Some (VList [VSeq [Some
    (VInt 0); Some (VOcts [5; 0])]])]))]);
  ("GeneralNames", VList [VAlt 3 (VSeq [Some (VSeq [None; None; None; None; None; None; None; None; None]); Some
    (VList [VSeq [Some (VText [65]); Some (VText [65])]]); Some (VList [VSeq [Some (VInt 0); Some (VOcts [5;
    0])]])])]);
  ("Name", VAlt 0 (VList [VList []]));
  ("RDNSequence", VList [VList []]);
  ("RelativeDistinguishedName", VList []);
  ("PolicyConstraints", VSeq [Some (VInt 0); Some (VInt 0)]);
  ("SkipCerts", VInt 0);
  ("BaseCRLNumber", VInt 0);
  ("CRLNumber", VInt 0);
  ("ORAddress", VSeq [Some (VSeq [None; None; None; None; None; None; None; None; None]); Some (VList [VSeq [Some
    (VText [65]); Some (VText [65])]]); Some (VList [VSeq [Some (VInt 0); Some (VOcts [5; 0])]])]);
  ("ExtensionAttributes", VList [VSeq [Some (VInt 0); Some (VOcts [5; 0])]]);
  ("ExtensionAttribute", VSeq [Some (VInt 0); Some (VOcts [5; 0])]);
  ("UnformattedPostalAddress", VSeq [Some (VList [VText (chars "1234567")]); None]);
  ("TerminalType", VInt 3);
  ("TeletexDomainDefinedAttributes", VList [VSeq [Some (VText [65]); Some (VText [])]]);
  ("TeletexDomainDefinedAttribute", VSeq [Some (VText [65]); Some (VText [])])] ++ [
  (("rfc2314", "CertificationRequest"), VSeq [Some (VSeq [Some (VInt 0); Some (VAlt 0 (VList [VList []])); Some (VSeq
    [Some (VSeq [Some (VOid [1; 2; 3]); None]); Some (VBits [])]); Some (VList [])]); Some (VSeq [Some (VOid [1; 2;
    3]); None]); Some (VBits [])]);
  (("rfc2314", "CertificationRequestInfo"), VSeq [Some (VInt 0); Some (VAlt 0 (VList [VList []])); Some (VSeq [Some
    (VSeq [Some (VOid [1; 2; 3]); None]); Some (VBits [])]); Some (VList [])]);
  (("rfc2314", "GeneralName"), VAlt 3 (VSeq [Some (VSeq [None; None; None; None; None; None; None; None; None]); Some
    (VList [VSeq [Some (VText [65]); Some (VText [65])]]); Some (VList [VSeq [Some (VInt 0); Some (VOcts [5;
    0])]])]));
  (("rfc2315", "EnvelopedData"), VSeq [Some (VInt 0); Some (VList [VSeq [Some (VInt 0); Some (VSeq [Some (VAlt 0
    (VList [VList []])); Some (VInt 0)]); Some (VSeq [Some (VOid [1; 2; 3]); None]); Some (VOcts [])]]); Some (VSeq
    [Some (VOid [1; 2; 3]); Some (VSeq [Some (VOid [1; 2; 3]); None]); None])]);
  (("rfc2315", "SignedAndEnvelopedData"), VSeq [Some (VInt 0); Some (VList [VSeq [Some (VInt 0); Some (VSeq [Some
    (VAlt 0 (VList [VList []])); Some (VInt 0)]); Some (VSeq [Some (VOid [1; 2; 3]); None]); Some (VOcts [])]]);
    Some (VList []); Some (VSeq [Some (VOid [1; 2; 3]); Some (VSeq [Some (VOid [1; 2; 3]); None]); None]); None;
    None; Some (VList [])]);
  (("rfc2315", "SignerInfos"), VList [VSeq [Some (VInt 0); Some (VSeq [Some (VAlt 0 (VList [VList []])); Some (VInt
    0)]); Some (VSeq [Some (VOid [1; 2; 3]); None]); None; Some (VSeq [Some (VOid [1; 2; 3]); None]); Some (VOcts
    []); None]]);
  (("rfc2315", "SignerInfo"), VSeq [Some (VInt 0); Some (VSeq [Some (VAlt 0 (VList [VList []])); Some (VInt 0)]); Some
    (VSeq [Some (VOid [1; 2; 3]); None]); None; Some (VSeq [Some (VOid [1; 2; 3]); None]); Some (VOcts []); None]);
  (("rfc2315", "CertificateRevocationLists"), VList [VSeq [Some (VSeq [Some (VSeq [Some (VOid [1; 2; 3]); None]); Some
    (VAlt 0 (VList [VList []])); Some (VText utc_newyear); Some (VText utc_newyear); None]); Some (VSeq [Some (VOid
    [1; 2; 3]); None]); Some (VBits [])]]);
  (("rfc2315", "CertificateRevocationList"), VSeq [Some (VSeq [Some (VSeq [Some (VOid [1; 2; 3]); None]); Some (VAlt 0
    (VList [VList []])); Some (VText utc_newyear); Some (VText utc_newyear); None]); Some (VSeq [Some (VOid [1; 2;
    3]); None]); Some (VBits [])]);
  (("rfc2315", "TBSCertificateRevocationList"), VSeq [Some (VSeq [Some (VOid [1; 2; 3]); None]); Some (VAlt 0 (VList
    [VList []])); Some (VText utc_newyear); Some (VText utc_newyear); None]);
  (("rfc2315", "ExtendedCertificatesAndCertificates"), VList [VAlt 0 (VSeq [Some (VSeq [None; Some (VInt 0); Some
    (VSeq [Some (VOid [1; 2; 3]); None]); Some (VAlt 0 (VList [VList []])); Some (VSeq [Some (VAlt 0 (VText
    utc_newyear)); Some (VAlt 0 (VText utc_newyear))]); Some (VAlt 0 (VList [])); Some (VSeq [Some (VSeq [Some (VOid
    [1; 2; 3]); None]); Some (VBits [])]); None; None; None]); Some (VSeq [Some (VOid [1; 2; 3]); None]); Some
    (VBits [])])]);
  (("rfc2315", "ExtendedCertificateOrCertificate"), VAlt 0 (VSeq [Some (VSeq [None; Some (VInt 0); Some (VSeq [Some
    (VOid [1; 2; 3]); None]); Some (VAlt 0 (VList [VList []])); Some (VSeq [Some (VAlt 0 (VText utc_newyear)); Some
    (VAlt 0 (VText utc_newyear))]); Some (VAlt 0 (VList [])); Some (VSeq [Some (VSeq [Some (VOid [1; 2; 3]); None]);
    Some (VBits [])]); None; None; None]); Some (VSeq [Some (VOid [1; 2; 3]); None]); Some (VBits [])]));
  (("rfc2315", "ExtendedCertificate"), VSeq [Some (VSeq [Some (VInt 0); Some (VSeq [Some (VSeq [None; Some (VInt 0);
    Some (VSeq [Some (VOid [1; 2; 3]); None]); Some (VAlt 0 (VList [VList []])); Some (VSeq [Some (VAlt 0 (VText
    utc_newyear)); Some (VAlt 0 (VText utc_newyear))]); Some (VAlt 0 (VList [])); Some (VSeq [Some (VSeq [Some (VOid
    [1; 2; 3]); None]); Some (VBits [])]); None; None; None]); Some (VSeq [Some (VOid [1; 2; 3]); None]); Some
    (VBits [])]); Some (VList [])]); Some (VSeq [Some (VOid [1; 2; 3]); None]); Some (VBits [])]);
  (("rfc2315", "ExtendedCertificateInfo"), VSeq [Some (VInt 0); Some (VSeq [Some (VSeq [None; Some (VInt 0); Some
    (VSeq [Some (VOid [1; 2; 3]); None]); Some (VAlt 0 (VList [VList []])); Some (VSeq [Some (VAlt 0 (VText
    utc_newyear)); Some (VAlt 0 (VText utc_newyear))]); Some (VAlt 0 (VList [])); Some (VSeq [Some (VSeq [Some (VOid
    [1; 2; 3]); None]); Some (VBits [])]); None; None; None]); Some (VSeq [Some (VOid [1; 2; 3]); None]); Some
    (VBits [])]); Some (VList [])]);
  (("rfc2315", "RecipientInfos"), VList [VSeq [Some (VInt 0); Some (VSeq [Some (VAlt 0 (VList [VList []])); Some (VInt
    0)]); Some (VSeq [Some (VOid [1; 2; 3]); None]); Some (VOcts [])]]);
  (("rfc2315", "RecipientInfo"), VSeq [Some (VInt 0); Some (VSeq [Some (VAlt 0 (VList [VList []])); Some (VInt 0)]);
    Some (VSeq [Some (VOid [1; 2; 3]); None]); Some (VOcts [])]);
  (("rfc2315", "IssuerAndSerialNumber"), VSeq [Some (VAlt 0 (VList [VList []])); Some (VInt 0)]);
  (("rfc2315", "GeneralName"), VAlt 3 (VSeq [Some (VSeq [None; None; None; None; None; None; None; None; None]); Some
    (VList [VSeq [Some (VText [65]); Some (VText [65])]]); Some (VList [VSeq [Some (VInt 0); Some (VOcts [5;
    0])]])]));
  (("rfc2459", "GeneralName"), VAlt 3 (VSeq [Some (VSeq [None; None; None; None; None; None; None; None; None]); Some
    (VList [VSeq [Some (VText [65]); Some (VText [65])]]); Some (VList [VSeq [Some (VInt 0); Some (VOcts [5;
    0])]])]));
  (("rfc2511", "CertReq"), VSeq [Some (VInt 0); Some (VSeq [None; None; None; Some (VAlt 0 (VList [VList []])); None;
    None; None; None; None; None]); None]);
  (("rfc2511", "CertRequest"), VSeq [Some (VInt 0); Some (VSeq [None; None; None; Some (VAlt 0 (VList [VList []]));
    None; None; None; None; None; None]); None]);
  (("rfc2511", "CertTemplate"), VSeq [None; None; None; Some (VAlt 0 (VList [VList []])); None; None; None; None;
    None; None]);
  (("rfc2560", "Signature"), VSeq [Some (VSeq [Some (VOid [1; 2; 3]); None]); Some (VBits []); Some (VList [VSeq [Some
    (VSeq [None; Some (VInt 0); Some (VSeq [Some (VOid [1; 2; 3]); None]); Some (VAlt 0 (VList [VList []])); Some
    (VSeq [Some (VAlt 0 (VText utc_newyear)); Some (VAlt 0 (VText utc_newyear))]); Some (VAlt 0 (VList [])); Some
    (VSeq [Some (VSeq [Some (VOid [1; 2; 3]); None]); Some (VBits [])]); None; None; None]); Some (VSeq [Some (VOid
    [1; 2; 3]); None]); Some (VBits [])]])]);
  (("rfc2560", "BasicOCSPResponse"), VSeq [Some (VSeq [None; Some (VAlt 0 (VAlt 0 (VList [VList []]))); Some (VText
    newyear); Some (VList []); None]); Some (VSeq [Some (VOid [1; 2; 3]); None]); Some (VBits []); None]);
  (("rfc2560", "ResponseData"), VSeq [None; Some (VAlt 0 (VAlt 0 (VList [VList []]))); Some (VText newyear); Some
    (VList []); None]);
  (("rfc2560", "ResponderID"), VAlt 0 (VAlt 0 (VList [VList []])));
  (("rfc2634", "SigningCertificate"), VSeq [Some (VList []); Some (VList [VSeq [Some (VOid [1; 2; 3]); Some (VList
    [])]])]);
  (("rfc2634", "PolicyInformation"), VSeq [Some (VOid [1; 2; 3]); Some (VList [])]);
  (("rfc3125", "PolicyInformation"), VSeq [Some (VOid [1; 2; 3]); Some (VList [])]);
  (("rfc3280", "CertificatePolicies"), VList [VSeq [Some (VOid [1; 2; 3]); Some (VList [])]]);
  (("rfc3280", "PolicyInformation"), VSeq [Some (VOid [1; 2; 3]); Some (VList [])]);
  (("rfc3280", "PolicyQualifierInfo"), VSeq [Some (VOid [1; 2; 3]); Some (VOcts [5; 0])]);
  (("rfc3280", "PolicyQualifierId"), VOid [1; 2; 3]);
  (("rfc3280", "UnformattedPostalAddress"), VSeq [Some (VList []); None]);
  (("rfc3280", "TerminalType"), VInt (-1));
  (("rfc3280", "ExtendedNetworkAddress"), VAlt 1 (VSeq [None; None; None; Some (VList [])]));
  (("rfc3280", "PresentationAddress"), VSeq [None; None; None; Some (VList [])]);
  (("rfc4210", "PBMParameter"), VSeq [Some (VOcts (repeat 1 129)); Some (VSeq [Some (VOid [1; 2; 3]); None]); Some
    (VInt 0); Some (VSeq [Some (VOid [1; 2; 3]); None])]);
  (("rfc4210", "NestedMessageContent"), VList []);
  (("rfc4210", "CertOrEncCert"), VAlt 0 (VSeq [Some (VSeq [None; Some (VInt 0); Some (VSeq [Some (VOid [1; 2; 3]);
    None]); Some (VAlt 0 (VList [VList []])); Some (VSeq [Some (VAlt 0 (VText utc_newyear)); Some (VAlt 0 (VText
    utc_newyear))]); Some (VAlt 0 (VList [])); Some (VSeq [Some (VSeq [Some (VOid [1; 2; 3]); None]); Some (VBits
    [])]); None; None; None]); Some (VSeq [Some (VOid [1; 2; 3]); None]); Some (VBits [])]));
  (("rfc4210", "RevReqContent"), VList [VSeq [Some (VSeq [None; None; None; Some (VAlt 0 (VList [VList []])); None;
    None; None; None; None; None]); None]]);
  (("rfc4210", "RevDetails"), VSeq [Some (VSeq [None; None; None; Some (VAlt 0 (VList [VList []])); None; None; None;
    None; None; None]); None]);
  (("rfc4210", "CAKeyUpdAnnContent"), VSeq [Some (VSeq [Some (VSeq [None; Some (VInt 0); Some (VSeq [Some (VOid [1; 2;
    3]); None]); Some (VAlt 0 (VList [VList []])); Some (VSeq [Some (VAlt 0 (VText utc_newyear)); Some (VAlt 0
    (VText utc_newyear))]); Some (VAlt 0 (VList [])); Some (VSeq [Some (VSeq [Some (VOid [1; 2; 3]); None]); Some
    (VBits [])]); None; None; None]); Some (VSeq [Some (VOid [1; 2; 3]); None]); Some (VBits [])]); Some (VSeq [Some
    (VSeq [None; Some (VInt 0); Some (VSeq [Some (VOid [1; 2; 3]); None]); Some (VAlt 0 (VList [])); Some (VSeq
    [Some (VAlt 0 (VText utc_newyear)); Some (VAlt 0 (VText utc_newyear))]); Some (VAlt 0 (VList [])); Some (VSeq
    [Some (VSeq [Some (VOid [1; 2; 3]); None]); Some (VBits [])]); None; None; None]); Some (VSeq [Some (VOid [1; 2;
    3]); None]); Some (VBits [])]); Some (VSeq [Some (VSeq [None; Some (VInt 0); Some (VSeq [Some (VOid [1; 2; 3]);
    None]); Some (VAlt 0 (VList [])); Some (VSeq [Some (VAlt 0 (VText utc_newyear)); Some (VAlt 0 (VText
    utc_newyear))]); Some (VAlt 0 (VList [])); Some (VSeq [Some (VSeq [Some (VOid [1; 2; 3]); None]); Some (VBits
    [])]); None; None; None]); Some (VSeq [Some (VOid [1; 2; 3]); None]); Some (VBits [])])]);
  (("rfc4210", "CRLAnnContent"), VList [VSeq [Some (VSeq [None; Some (VSeq [Some (VOid [1; 2; 3]); None]); Some (VAlt
    0 (VList [VList []])); Some (VAlt 0 (VText utc_newyear)); None; None; None]); Some (VSeq [Some (VOid [1; 2; 3]);
    None]); Some (VBits [])]]);
  (("rfc4210", "CertAnnContent"), VSeq [Some (VSeq [None; Some (VInt 0); Some (VSeq [Some (VOid [1; 2; 3]); None]);
    Some (VAlt 0 (VList [VList []])); Some (VSeq [Some (VAlt 0 (VText utc_newyear)); Some (VAlt 0 (VText
    utc_newyear))]); Some (VAlt 0 (VList [])); Some (VSeq [Some (VSeq [Some (VOid [1; 2; 3]); None]); Some (VBits
    [])]); None; None; None]); Some (VSeq [Some (VOid [1; 2; 3]); None]); Some (VBits [])]);
  (("rfc4210", "OOBCert"), VSeq [Some (VSeq [None; Some (VInt 0); Some (VSeq [Some (VOid [1; 2; 3]); None]); Some
    (VAlt 0 (VList [VList []])); Some (VSeq [Some (VAlt 0 (VText utc_newyear)); Some (VAlt 0 (VText utc_newyear))]);
    Some (VAlt 0 (VList [])); Some (VSeq [Some (VSeq [Some (VOid [1; 2; 3]); None]); Some (VBits [])]); None; None;
    None]); Some (VSeq [Some (VOid [1; 2; 3]); None]); Some (VBits [])]);
  (("rfc4210", "CMPCertificate"), VSeq [Some (VSeq [None; Some (VInt 0); Some (VSeq [Some (VOid [1; 2; 3]); None]);
    Some (VAlt 0 (VList [VList []])); Some (VSeq [Some (VAlt 0 (VText utc_newyear)); Some (VAlt 0 (VText
    utc_newyear))]); Some (VAlt 0 (VList [])); Some (VSeq [Some (VSeq [Some (VOid [1; 2; 3]); None]); Some (VBits
    [])]); None; None; None]); Some (VSeq [Some (VOid [1; 2; 3]); None]); Some (VBits [])]);
  (("rfc4211", "PKIPublicationInfo"), VSeq [Some (VInt 0); Some (VList [])]);
  (("rfc4211", "CertReqMessages"), VList [VSeq [Some (VSeq [Some (VInt 0); Some (VSeq [None; None; None; None; None;
    None; None; None; None; None]); None]); None; Some (VList [])]]);
  (("rfc4211", "CertReqMsg"), VSeq [Some (VSeq [Some (VInt 0); Some (VSeq [None; None; None; None; None; None; None;
    None; None; None]); None]); None; Some (VList [])]);
  (("rfc4334", "SSIDList"), VList [VOcts []]);
  (("rfc4334", "SSID"), VOcts []);
  (("rfc4476", "AcPoliciesSyntax"), VList [VSeq [Some (VOid [1; 2; 3]); Some (VList [VSeq [Some (VOid [1; 2; 3]); Some
    (VOcts [5; 0])]])]]);
  (("rfc4476", "PolicyInformation"), VSeq [Some (VOid [1; 2; 3]); Some (VList [VSeq [Some (VOid [1; 2; 3]); Some
    (VOcts [5; 0])]])]);
  (("rfc4476", "PolicyQualifierInfo"), VSeq [Some (VOid [1; 2; 3]); Some (VOcts [5; 0])]);
  (("rfc4476", "PolicyQualifierId"), VOid [1; 2; 3]);
  (("rfc5035", "SigningCertificate"), VSeq [Some (VList []); Some (VList [VSeq [Some (VOid [1; 2; 3]); Some (VList
    [])]])]);
  (("rfc5035", "PolicyInformation"), VSeq [Some (VOid [1; 2; 3]); Some (VList [])]);
  (("rfc5126", "OtherSigningCertificate"), VSeq [Some (VList []); Some (VList [VSeq [Some (VOid [1; 2; 3]); Some
    (VList [])]])]);
  (("rfc5126", "PolicyInformation"), VSeq [Some (VOid [1; 2; 3]); Some (VList [])]);
  (("rfc5126", "SigningCertificate"), VSeq [Some (VList []); Some (VList [VSeq [Some (VOid [1; 2; 3]); Some (VList
    [])]])]);
  (("rfc5208", "GeneralName"), VAlt 3 (VSeq [Some (VSeq [None; None; None; None; None; None; None; None; None]); Some
    (VList [VSeq [Some (VText [65]); Some (VText [65])]]); Some (VList [VSeq [Some (VInt 0); Some (VOcts [5;
    0])]])]));
  (("rfc5280", "CertificatePolicies"), VList [VSeq [Some (VOid [1; 2; 3]); Some (VList [])]]);
  (("rfc5280", "PolicyInformation"), VSeq [Some (VOid [1; 2; 3]); Some (VList [])]);
  (("rfc5280", "PolicyQualifierInfo"), VSeq [Some (VOid [1; 2; 3]); Some (VOcts [5; 0])]);
  (("rfc5280", "PolicyQualifierId"), VOid [1; 2; 3]);
  (("rfc5280", "ExtendedNetworkAddress"), VAlt 1 (VSeq [None; None; None; Some (VList [])]));
  (("rfc5280", "PresentationAddress"), VSeq [None; None; None; Some (VList [])]);
  (("rfc5280", "UnformattedPostalAddress"), VSeq [Some (VList []); None]);
  (("rfc5280", "TerminalType"), VInt (-1));
  (("rfc5914", "TrustAnchorList"), VList [VAlt 2 (VSeq [None; Some (VSeq [Some (VSeq [Some (VOid [1; 2; 3]); None]);
    Some (VBits [])]); Some (VOcts []); None; Some (VSeq [Some (VAlt 0 (VList [])); None; Some (VList [VSeq [Some
    (VOid [1; 2; 3]); Some (VList [])]]); None; None; None]); None; None])]);
  (("rfc5914", "TrustAnchorChoice"), VAlt 2 (VSeq [None; Some (VSeq [Some (VSeq [Some (VOid [1; 2; 3]); None]); Some
    (VBits [])]); Some (VOcts []); None; Some (VSeq [Some (VAlt 0 (VList [])); None; Some (VList [VSeq [Some (VOid
    [1; 2; 3]); Some (VList [])]]); None; None; None]); None; None]));
  (("rfc5914", "TrustAnchorInfo"), VSeq [None; Some (VSeq [Some (VSeq [Some (VOid [1; 2; 3]); None]); Some (VBits
    [])]); Some (VOcts []); None; Some (VSeq [Some (VAlt 0 (VList [])); None; Some (VList [VSeq [Some (VOid [1; 2;
    3]); Some (VList [])]]); None; None; None]); None; None]);
  (("rfc5914", "CertPathControls"), VSeq [Some (VAlt 0 (VList [])); None; Some (VList [VSeq [Some (VOid [1; 2; 3]);
    Some (VList [])]]); None; None; None]);
  (("rfc5914", "CertificatePolicies"), VList [VSeq [Some (VOid [1; 2; 3]); Some (VList [])]]);
  (("rfc5915", "ECPrivateKey"), VSeq [Some (VInt 0); Some (VOcts []); None; None]);
  (("rfc5934", "TAMPApexUpdateConfirm"), VSeq [None; Some (VSeq [Some (VAlt 0 (VList [VSeq [Some (VOid [1; 2; 3]);
    Some (VList [VAlt 0 VNull])]])); Some (VInt 0)]); Some (VAlt 1 (VSeq [Some (VInt 0); Some (VList [VAlt 2 (VSeq
    [None; Some (VSeq [Some (VSeq [Some (VOid [1; 2; 3]); None]); Some (VBits [])]); Some (VOcts []); None; Some
    (VSeq [Some (VAlt 0 (VList [])); None; Some (VList [VSeq [Some (VOid [1; 2; 3]); Some (VList [])]]); None; None;
    None]); None; None])]); None; None]))]);
  (("rfc5934", "ApexUpdateConfirm"), VAlt 1 (VSeq [Some (VInt 0); Some (VList [VAlt 2 (VSeq [None; Some (VSeq [Some
    (VSeq [Some (VOid [1; 2; 3]); None]); Some (VBits [])]); Some (VOcts []); None; Some (VSeq [Some (VAlt 0 (VList
    [])); None; Some (VList [VSeq [Some (VOid [1; 2; 3]); Some (VList [])]]); None; None; None]); None; None])]);
    None; None]));
  (("rfc5934", "VerboseApexUpdateConfirm"), VSeq [Some (VInt 0); Some (VList [VAlt 2 (VSeq [None; Some (VSeq [Some
    (VSeq [Some (VOid [1; 2; 3]); None]); Some (VBits [])]); Some (VOcts []); None; Some (VSeq [Some (VAlt 0 (VList
    [])); None; Some (VList [VSeq [Some (VOid [1; 2; 3]); Some (VList [])]]); None; None; None]); None; None])]);
    None; None]);
  (("rfc5934", "TAMPApexUpdate"), VSeq [None; None; Some (VSeq [Some (VAlt 0 (VList [VSeq [Some (VOid [1; 2; 3]); Some
    (VList [VAlt 0 VNull])]])); Some (VInt 0)]); Some (VBool true); Some (VBool true); None; Some (VAlt 2 (VSeq
    [None; Some (VSeq [Some (VSeq [Some (VOid [1; 2; 3]); None]); Some (VBits [])]); Some (VOcts []); None; Some
    (VSeq [Some (VAlt 0 (VList [])); None; Some (VList [VSeq [Some (VOid [1; 2; 3]); Some (VList [])]]); None; None;
    None]); None; None]))]);
  (("rfc5934", "TAMPUpdateConfirm"), VSeq [None; Some (VSeq [Some (VAlt 0 (VList [VSeq [Some (VOid [1; 2; 3]); Some
    (VList [VAlt 0 VNull])]])); Some (VInt 0)]); Some (VAlt 1 (VSeq [Some (VList [VInt 0]); Some (VList [VAlt 2
    (VSeq [None; Some (VSeq [Some (VSeq [Some (VOid [1; 2; 3]); None]); Some (VBits [])]); Some (VOcts []); None;
    Some (VSeq [Some (VAlt 0 (VList [])); None; Some (VList [VSeq [Some (VOid [1; 2; 3]); Some (VList [])]]); None;
    None; None]); None; None])]); None; None]))]);
  (("rfc5934", "UpdateConfirm"), VAlt 1 (VSeq [Some (VList [VInt 0]); Some (VList [VAlt 2 (VSeq [None; Some (VSeq
    [Some (VSeq [Some (VOid [1; 2; 3]); None]); Some (VBits [])]); Some (VOcts []); None; Some (VSeq [Some (VAlt 0
    (VList [])); None; Some (VList [VSeq [Some (VOid [1; 2; 3]); Some (VList [])]]); None; None; None]); None;
    None])]); None; None]));
  (("rfc5934", "VerboseUpdateConfirm"), VSeq [Some (VList [VInt 0]); Some (VList [VAlt 2 (VSeq [None; Some (VSeq [Some
    (VSeq [Some (VOid [1; 2; 3]); None]); Some (VBits [])]); Some (VOcts []); None; Some (VSeq [Some (VAlt 0 (VList
    [])); None; Some (VList [VSeq [Some (VOid [1; 2; 3]); Some (VList [])]]); None; None; None]); None; None])]);
    None; None]);
  (("rfc5934", "TAMPUpdate"), VSeq [None; None; Some (VSeq [Some (VAlt 0 (VList [VSeq [Some (VOid [1; 2; 3]); Some
    (VList [VAlt 0 VNull])]])); Some (VInt 0)]); Some (VList [VAlt 0 (VAlt 2 (VSeq [None; Some (VSeq [Some (VSeq
    [Some (VOid [1; 2; 3]); None]); Some (VBits [])]); Some (VOcts []); None; Some (VSeq [Some (VAlt 0 (VList []));
    None; Some (VList [VSeq [Some (VOid [1; 2; 3]); Some (VList [])]]); None; None; None]); None; None]))]); None]);
  (("rfc5934", "TrustAnchorUpdate"), VAlt 0 (VAlt 2 (VSeq [None; Some (VSeq [Some (VSeq [Some (VOid [1; 2; 3]);
    None]); Some (VBits [])]); Some (VOcts []); None; Some (VSeq [Some (VAlt 0 (VList [])); None; Some (VList [VSeq
    [Some (VOid [1; 2; 3]); Some (VList [])]]); None; None; None]); None; None])));
  (("rfc5934", "TrustAnchorChangeInfoChoice"), VAlt 1 (VSeq [Some (VSeq [Some (VSeq [Some (VOid [1; 2; 3]); None]);
    Some (VBits [])]); None; None; Some (VSeq [Some (VAlt 0 (VList [])); None; Some (VList [VSeq [Some (VOid [1; 2;
    3]); Some (VList [])]]); None; None; None]); None]));
  (("rfc5934", "TrustAnchorChangeInfo"), VSeq [Some (VSeq [Some (VSeq [Some (VOid [1; 2; 3]); None]); Some (VBits
    [])]); None; None; Some (VSeq [Some (VAlt 0 (VList [])); None; Some (VList [VSeq [Some (VOid [1; 2; 3]); Some
    (VList [])]]); None; None; None]); None]);
  (("rfc5934", "TAMPStatusResponse"), VSeq [None; Some (VSeq [Some (VAlt 0 (VList [VSeq [Some (VOid [1; 2; 3]); Some
    (VList [VAlt 0 VNull])]])); Some (VInt 0)]); Some (VAlt 1 (VSeq [Some (VList [VAlt 2 (VSeq [None; Some (VSeq
    [Some (VSeq [Some (VOid [1; 2; 3]); None]); Some (VBits [])]); Some (VOcts []); None; Some (VSeq [Some (VAlt 0
    (VList [])); None; Some (VList [VSeq [Some (VOid [1; 2; 3]); Some (VList [])]]); None; None; None]); None;
    None])]); None; None; None])); None]);
  (("rfc5934", "StatusResponse"), VAlt 1 (VSeq [Some (VList [VAlt 2 (VSeq [None; Some (VSeq [Some (VSeq [Some (VOid
    [1; 2; 3]); None]); Some (VBits [])]); Some (VOcts []); None; Some (VSeq [Some (VAlt 0 (VList [])); None; Some
    (VList [VSeq [Some (VOid [1; 2; 3]); Some (VList [])]]); None; None; None]); None; None])]); None; None; None]));
  (("rfc5934", "VerboseStatusResponse"), VSeq [Some (VList [VAlt 2 (VSeq [None; Some (VSeq [Some (VSeq [Some (VOid [1;
    2; 3]); None]); Some (VBits [])]); Some (VOcts []); None; Some (VSeq [Some (VAlt 0 (VList [])); None; Some
    (VList [VSeq [Some (VOid [1; 2; 3]); Some (VList [])]]); None; None; None]); None; None])]); None; None; None]);
  (("rfc5934", "TrustAnchorChoiceList"), VList [VAlt 2 (VSeq [None; Some (VSeq [Some (VSeq [Some (VOid [1; 2; 3]);
    None]); Some (VBits [])]); Some (VOcts []); None; Some (VSeq [Some (VAlt 0 (VList [])); None; Some (VList [VSeq
    [Some (VOid [1; 2; 3]); Some (VList [])]]); None; None; None]); None; None])]);
  (("rfc5934", "TrustAnchorChoice"), VAlt 2 (VSeq [None; Some (VSeq [Some (VSeq [Some (VOid [1; 2; 3]); None]); Some
    (VBits [])]); Some (VOcts []); None; Some (VSeq [Some (VAlt 0 (VList [])); None; Some (VList [VSeq [Some (VOid
    [1; 2; 3]); Some (VList [])]]); None; None; None]); None; None]));
  (("rfc5934", "CertPathControls"), VSeq [Some (VAlt 0 (VList [])); None; Some (VList [VSeq [Some (VOid [1; 2; 3]);
    Some (VList [])]]); None; None; None]);
  (("rfc6402", "EncryptedPOP"), VSeq [Some (VAlt 1 (VSeq [Some (VSeq [Some (VInt 0); Some (VSeq [None; None; None;
    None; None; None; None; None; None; None]); None]); None; Some (VList [])])); Some (VSeq [Some (VOid [1; 2; 3]);
    Some (VOcts [5; 0])]); Some (VSeq [Some (VOid [1; 2; 3]); None]); Some (VSeq [Some (VOid [1; 2; 3]); None]);
    Some (VOcts [])]);
  (("rfc6402", "PKIData"), VSeq [Some (VList []); Some (VList [VAlt 1 (VSeq [Some (VSeq [Some (VInt 0); Some (VSeq
    [None; None; None; None; None; None; None; None; None; None]); None]); None; Some (VList [])])]); Some (VList
    []); Some (VList [])]);
  (("rfc6402", "CMCStatusInfo"), VSeq [Some (VInt 0); Some (VList []); None; None]);
  (("rfc6402", "CMCPublicationInfo"), VSeq [Some (VSeq [Some (VOid [1; 2; 3]); None]); Some (VList []); Some (VSeq
    [Some (VInt 0); Some (VList [])])]);
  (("rfc6402", "TaggedRequest"), VAlt 1 (VSeq [Some (VSeq [Some (VInt 0); Some (VSeq [None; None; None; None; None;
    None; None; None; None; None]); None]); None; Some (VList [])]));
  (("rfc6402", "ControlsProcessed"), VSeq [Some (VList [])]);
  (("rfc7508", "SecureHeaderFields"), VSeq [Some (VInt 0); Some (VList [VSeq [Some (VText [65; 9]); Some (VText []);
    None]])]);
  (("rfc7508", "HeaderFields"), VList [VSeq [Some (VText [65; 9]); Some (VText []); None]]);
  (("rfc7508", "HeaderField"), VSeq [Some (VText [65; 9]); Some (VText []); None]);
  (("rfc7508", "HeaderFieldName"), VText [65; 9])].

Definition deviating : list name2 := map fst deviations.
Definition loose_types : list name2 := map fst loose.
(** Those of the types with other bounds that refuse a value of the RFC's type; the others
    accept all of them, and more. *)
Definition tight : list name2 :=
  flat_map (fun m => map (fun x => (m, x)) [
    "IssuerAltName"; "SubjectAltName"; "CertificateIssuer"; "NameConstraints"; "GeneralSubtrees"; "GeneralSubtree";
    "CRLDistPointsSyntax"; "DistributionPoint"; "DistributionPointName"; "AuthorityKeyIdentifier";
    "AuthorityInfoAccessSyntax"; "AccessDescription"; "GeneralNames"; "PolicyConstraints"; "SkipCerts"; "BaseCRLNumber";
    "CRLNumber"; "ORAddress"; "ExtensionAttributes"; "ExtensionAttribute"; "UnformattedPostalAddress"; "TerminalType"])
    ["rfc2459"; "rfc2314"; "rfc2315"; "rfc2511"; "rfc5208"] ++ [
  ("rfc2314", "GeneralName"); ("rfc2315", "GeneralName"); ("rfc2459", "GeneralName"); ("rfc5208", "GeneralName");
  ("rfc4210", "PBMParameter")].
(** Types within which a CHOICE has an alternative that the RFC does not have (rfc2459.py
    l.271-284: DirectoryString with ia5String), of those not among the types with other bounds. *)
Definition widening : list (name2 * aval) := of_rfc2459 [
  ("DirectoryString", VAlt 5 (VText [65]));
  ("EDIPartyName", VSeq [None; Some (VAlt 5 (VText [65]))])].
Definition widened : list name2 := map fst widening.
(** Types with other names of components or numbers. *)
Definition renamed : list name2 := [("rfc5208", "Version"); ("rfc5208", "PrivateKeyInfo")].

(** Schema objects that no ASN.1 module defines. *)
Definition homemade : list name2 := [
  ("rfc1157", "Community"); ("rfc1157", "_RequestBase"); ("rfc1902", "Bits"); ("rfc1902", "Integer"); ("rfc1902",
  "OctetString"); ("rfc1905", "_BindValue"); ("rfc2314", "DSAPrivateKey"); ("rfc2315", "AttributeValueAssertion");
  ("rfc2315", "DSAPrivateKey"); ("rfc2459", "DSAPrivateKey"); ("rfc2511", "DSAPrivateKey"); ("rfc2985",
  "AttributeSet"); ("rfc2985", "AttributeValues"); ("rfc2985", "CMSAttribute"); ("rfc2985", "CMSSingleAttribute");
  ("rfc2985", "SingleAttribute"); ("rfc2985", "SingleAttributeValues"); ("rfc3560", "rSAES_OAEP_Default_Params");
  ("rfc4055", "rSAES_OAEP_Default_Params"); ("rfc4055", "rSASSA_PSS_Default_Params"); ("rfc4210",
  "nestedMessageContent"); ("rfc5208", "DSAPrivateKey"); ("rfc5934", "SingleAttribute"); ("rfc7292", "BAG_TYPE");
  ("rfc7292", "CMSSingleAttribute"); ("rfc7906", "aa_keyUse"); ("rfc7906", "aa_otherCertificateFormats")].

(** ** How far the deviations go *)

(** Deviating types that are right but for some components: without these, or where these
    are spelt out (are present, differ from the values given and are not empty), values are
    encoded as the RFC says. *)
Definition without := map Without.
Definition explicit (l : list string) := map (fun n => Explicit n []) l.
Definition null_parameters : aval :=
  VTyped (TPrim KNull {| tags := [mkTag Universal false 5]; spec := CInter [CSingle [CVStr []]]; nvals := []; szs := CInter [] |}) (Some VNull).
Definition prf_given : list exempt := [Explicit "prf" [VSeq [Some (VOid [1; 2; 840; 113549; 2; 7]); Some null_parameters]]].
Definition hash_given : list exempt :=
  [Explicit "hashAlgorithm" [VSeq [Some (VOid [2; 16; 840; 1; 101; 3; 4; 2; 1]); Some (VOcts [4; 0])]]].
Definition all_of_rfc2459 (l : list (string * list exempt)) : list (name2 * list exempt) :=
  flat_map (fun m => map (fun e => ((m, fst e), snd e)) l) ["rfc2459"; "rfc2314"; "rfc2315"; "rfc2511"; "rfc5208"].
Definition cmp_parts : list exempt := without ["x400Address"; "generalInfo"].
Definition cmp_bodies : list exempt :=
  without ["revCerts"; "poposkInput"; "keyEncipherment"; "keyAgreement"; "pubLocation"; "rann"].
Definition confined : list (name2 * list exempt) := all_of_rfc2459 [
  ("IssuingDistributionPoint", explicit ["onlyContainsUserCerts"; "onlyContainsCACerts"; "indirectCRL"]);
  ("ExtendedNetworkAddress", explicit ["nAddresses"]); ("PresentationAddress", explicit ["nAddresses"]);
  ("DomainParameters", explicit ["j"])] ++ [
  (("rfc1157", "Message"), without ["trap"]); (("rfc1157", "Pdus"), without ["trap"]);
  (("rfc2251", "LDAPMessage"), without ["unbindRequest"; "delRequest"; "abandonRequest"]);
  (("rfc2315", "SignedData"), explicit ["digestAlgorithms"; "signerInfos"]);
  (("rfc2511", "CertReqMessages"), without ["sender"]); (("rfc2511", "CertReqMsg"), without ["sender"]);
  (("rfc2511", "ProofOfPossession"), without ["sender"]); (("rfc2511", "POPOSigningKey"), without ["sender"]);
  (("rfc2511", "POPOSigningKeyInput"), without ["sender"]);
  (("rfc2511", "PKIPublicationInfo"), without ["pubLocation"]); (("rfc2511", "SinglePubInfo"), without ["pubLocation"]);
  (("rfc2511", "PKIArchiveOptions"), without ["envelopedData"]); (("rfc2511", "EncryptedKey"), without ["envelopedData"]);
  (("rfc2560", "OCSPRequest"), without ["requestorName"]); (("rfc2560", "TBSRequest"), without ["requestorName"]);
  (("rfc2634", "EquivalentLabels"), without ["security-categories"]); (("rfc2634", "ESSSecurityLabel"), without ["security-categories"]);
  (("rfc3281", "Clearance"), without ["securityCategories"]);
  (("rfc3370", "PBKDF2_params"), prf_given); (("rfc3370", "RC2CBCParameter"), explicit ["rc2ParameterVersion"]);
  (("rfc3560", "RSAES_OAEP_params"), explicit ["hashFunc"; "maskGenFunc"; "pSourceFunc"]);
  (("rfc4055", "RSASSA_PSS_params"), explicit ["hashAlgorithm"; "maskGenAlgorithm"]);
  (("rfc4055", "RSAES_OAEP_params"), explicit ["hashFunc"; "maskGenFunc"; "pSourceFunc"]);
  (("rfc4210", "PKIMessages"), cmp_parts ++ cmp_bodies); (("rfc4210", "PKIMessage"), cmp_parts ++ cmp_bodies);
  (("rfc4210", "ProtectedPart"), cmp_parts ++ cmp_bodies); (("rfc4210", "PKIHeader"), cmp_parts);
  (("rfc4210", "PKIBody"), cmp_bodies); (("rfc4210", "OOBCertHash"), without ["certId"]);
  (("rfc4210", "CertRepMessage"), without ["pubLocation"]); (("rfc4210", "CertResponse"), without ["pubLocation"]);
  (("rfc4210", "KeyRecRepContent"), without ["pubLocation"]); (("rfc4210", "RevRepContent"), without ["revCerts"]);
  (("rfc4210", "CertifiedKeyPair"), without ["pubLocation"]);
  (("rfc5035", "EquivalentLabels"), without ["security-categories"]); (("rfc5035", "ESSSecurityLabel"), without ["security-categories"]);
  (("rfc5035", "SigningCertificateV2"), hash_given); (("rfc5035", "ESSCertIDv2"), hash_given);
  (("rfc5208", "PrivateKeyInfo"), without ["attributes"]);
  (("rfc5752", "MultipleSignatures"), hash_given);
  (("rfc5755", "Clearance_rfc3281"), without ["securityCategories"]); (("rfc5755", "Clearance"), without ["securityCategories"]);
  (("rfc5913", "AuthorityClearanceConstraints"), without ["securityCategories"]);
  (("rfc6402", "CMCStatusInfoV2"), without ["extendedFailInfo"]);
  (("rfc7906", "Classification"), without ["security-categories"]); (("rfc7906", "ESSSecurityLabel"), without ["security-categories"]);
  (("rfc8017", "RSASSA_PSS_params"), explicit ["hashAlgorithm"; "maskGenAlgorithm"]);
  (("rfc8017", "RSAES_OAEP_params"), explicit ["hashAlgorithm"; "maskGenAlgorithm"; "pSourceAlgorithm"]);
  (("rfc8018", "PBKDF2_params"), prf_given)].
(** The other deviating types: there is no such part. *)
Definition unconfined : list name2 := [
  ("rfc1157", "TrapPDU"); ("rfc2251", "AbandonRequest"); ("rfc2251", "DelRequest"); ("rfc2251", "UnbindRequest");
  ("rfc2437", "RSAES_OAEP_params"); ("rfc2511", "OldCertId"); ("rfc2511", "CertId"); ("rfc2511", "GeneralName");
  ("rfc2560", "GeneralName"); ("rfc2634", "SecurityCategories"); ("rfc2634", "SecurityCategory"); ("rfc3280", "DirectoryString");
  ("rfc3281", "SecurityCategory"); ("rfc3447", "RSAES_OAEP_params"); ("rfc4108", "FirmwarePackageInfo"); ("rfc4210", "RevAnnContent");
  ("rfc5035", "SecurityCategories"); ("rfc5035", "SecurityCategory"); ("rfc5208", "Attributes"); ("rfc5755", "SecurityCategory");
  ("rfc7906", "SecurityCategories")].
(** Confined types that refuse a value of the RFC's type. *)
Definition confined_tight : list name2 :=
  map (fun m => (m, "IssuingDistributionPoint")) ["rfc2459"; "rfc2314"; "rfc2315"; "rfc2511"; "rfc5208"] ++ [("rfc3370", "RC2CBCParameter")].
(** Confined types with an additional alternative or with other constraints besides. *)
Definition inexact : list name2 := confined_tight ++ [
  ("rfc2315", "SignedData"); ("rfc2511", "CertReqMessages"); ("rfc2511", "CertReqMsg"); ("rfc2511", "PKIArchiveOptions"); ("rfc2511", "EncryptedKey");
  ("rfc2560", "OCSPRequest"); ("rfc4210", "PKIMessages"); ("rfc4210", "PKIMessage"); ("rfc4210", "ProtectedPart"); ("rfc4210", "PKIHeader");
  ("rfc4210", "PKIBody"); ("rfc4210", "CertRepMessage"); ("rfc4210", "CertResponse"); ("rfc4210", "KeyRecRepContent"); ("rfc4210", "RevRepContent");
  ("rfc4210", "CertifiedKeyPair"); ("rfc5035", "SigningCertificateV2"); ("rfc6402", "CMCStatusInfoV2")].
Definition exempted (n : name2) : option (list exempt) :=
  match find (fun e => String.eqb (fst (fst e)) (fst n) && String.eqb (snd (fst e)) (snd n)) confined with
  | Some e => Some (snd e)
  | None => None
  end.
(** All types within which a CHOICE has an alternative that the RFC does not have. *)
Definition more_alternatives : list name2 :=
  flat_map (fun m => map (fun x => (m, x)) [
    "IssuerAltName"; "SubjectAltName"; "CertificateIssuer"; "NameConstraints"; "GeneralSubtrees"; "GeneralSubtree"; "IssuingDistributionPoint";
    "CRLDistPointsSyntax"; "DistributionPoint"; "DistributionPointName"; "AuthorityKeyIdentifier";
    "AuthorityInfoAccessSyntax"; "AccessDescription"; "GeneralNames"; "EDIPartyName"; "DirectoryString"])
    ["rfc2459"; "rfc2314"; "rfc2315"; "rfc2511"; "rfc5208"] ++ [
  ("rfc2314", "GeneralName"); ("rfc2315", "GeneralName"); ("rfc2459", "GeneralName"); ("rfc5208", "GeneralName");
  ("rfc2511", "PKIArchiveOptions"); ("rfc2511", "EncryptedKey");
  ("rfc4210", "PKIMessages"); ("rfc4210", "PKIMessage"); ("rfc4210", "ProtectedPart"); ("rfc4210", "PKIHeader"); ("rfc4210", "PKIBody")].
(** Schema objects that spell no ASN.1 type, with what is within them that does not: the ANY under an IMPLICIT
    tag that is primitive of SecurityCategory (rfc2634.py l.173-178, rfc3281.py, rfc5035.py and
    rfc5755.py likewise), the NULL that is constructed (rfc2251.py l.278-281), the SIZE of a
    SEQUENCE (rfc4210.py l.743-747). *)
Definition unspelt : list name2 := [
  ("rfc2634", "SecurityCategory"); ("rfc2634", "SecurityCategories"); ("rfc2634", "ESSSecurityLabel"); ("rfc2634", "EquivalentLabels");
  ("rfc3281", "SecurityCategory"); ("rfc3281", "Clearance");
  ("rfc5035", "SecurityCategory"); ("rfc5035", "SecurityCategories"); ("rfc5035", "ESSSecurityLabel"); ("rfc5035", "EquivalentLabels");
  ("rfc5755", "SecurityCategory"); ("rfc5755", "Clearance"); ("rfc5755", "Clearance_rfc3281");
  ("rfc5913", "AuthorityClearanceConstraints");
  ("rfc7906", "SecurityCategories"); ("rfc7906", "ESSSecurityLabel"); ("rfc7906", "Classification");
  ("rfc2251", "UnbindRequest"); ("rfc2251", "LDAPMessage");
  ("rfc4210", "PKIHeader"); ("rfc4210", "ProtectedPart"); ("rfc4210", "PKIMessage"); ("rfc4210", "PKIMessages")].
(** Types with a DEFAULT that is no value of its component's type: an object inside an ANY. *)
Definition odd_defaults : list name2 := [("rfc3370", "PBKDF2_params"); ("rfc8018", "PBKDF2_params")].
