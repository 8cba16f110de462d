(** Facts about all the types of the 130 modules, decided in one computation. *)
From Coq Require Import List String ZArith NArith Bool Lia.
From Verif Require Import Py.Syntax Asn1.Types Py.Eval Asn1.EqbFacts Gen.All
  Asn1.Bytes Asn1.Der Asn1.Wf Asn1.RoundTrip Asn1.Open Asn1.Inside Asn1.OpenDepth Asn1.Nesting
  Load.Import Load.ImportFacts Load.Table Load.Computed Load.Registry Load.Session Load.Schemas.
Import ListNotations.
Open Scope string_scope.
Open Scope list_scope.

Opaque all_modules T nesting depth.

Section codec.
Context {Cdc : codec}.

Definition name2 := (string * string)%type.
Definition mem2 (l : list name2) (q : name2) : bool :=
  existsb (fun p => String.eqb (fst p) (fst q) && String.eqb (snd p) (snd q)) l.

(** ** Exceptions *)

(** The types that fail [wf], each with a value that does not survive. *)
Definition ambiguous : list (name2 * aval) := [
  (* otherInfo: failInfo [INTEGER], pendInfo and extendedFailInfo [SEQUENCE] without tags *)
  (("rfc6402", "CMCStatusInfoV2"), VSeq [Some (VInt 2); Some (VList [VAlt 0 (VInt 1)]); None; Some (VAlt 0 (VInt 0))]);
  (* subject Name OPTIONAL, subjectAlt GeneralNames OPTIONAL: both start with SEQUENCE *)
  (("rfc6402", "ChangeSubjectName"), VSeq [None; Some (VList [VAlt 1 (VText [97%N])])]);
  (* redefined as a CHOICE of one ANY *)
  (("rfc3280", "DirectoryString"), VAlt 0 (VOcts [4; 1; 7]%N));
  (* contains UnbindRequest *)
  (("rfc2251", "LDAPMessage"), VSeq [Some (VInt 1); Some (VAlt 2 VNull); None]);
  (* NULL with a constructed tag *)
  (("rfc2251", "UnbindRequest"), VNull)
].
Definition ambiguous_types : list name2 := map fst ambiguous.

(** CHOICE types with two alternatives of the same tag. *)
Definition clashing : list name2 := [("rfc6402", "CMCStatusInfoV2")].

(** SEQUENCE types with an open component governed by a name that is not a component. *)
Definition misgoverned : list name2 := [("rfc7292", "BAG_TYPE"); ("rfc2315", "AttributeValueAssertion")].

(** Exported objects that carry a value but lack mandatory components. *)
Definition templates : list name2 := [
  ("rfc2985", "challengePassword"); ("rfc2985", "contentType"); ("rfc2985", "counterSignature");
  ("rfc2985", "countryOfCitizenship"); ("rfc2985", "countryOfResidence"); ("rfc2985", "dateOfBirth");
  ("rfc2985", "emailAddress"); ("rfc2985", "encryptedPrivateKeyInfo");
  ("rfc2985", "extensionRequest"); ("rfc2985", "friendlyName");
  ("rfc2985", "gender"); ("rfc2985", "localKeyId"); ("rfc2985", "messageDigest"); ("rfc2985", "pKCS7PDU");
  ("rfc2985", "placeOfBirth"); ("rfc2985", "pseudonym"); ("rfc2985", "randomNonce");
  ("rfc2985", "sequenceNumber"); ("rfc2985", "serialNumber"); ("rfc2985", "signingDescription");
  ("rfc2985", "signingTime"); ("rfc2985", "unstructuredAddress");
  ("rfc2985", "unstructuredName"); ("rfc2985", "userPKCS12"); ("rfc4985", "srvName");
  ("rfc5126", "pointerToSigPolSpec"); ("rfc5916", "at_deviceOwner");
  ("rfc5917", "at_clearanceSponsor"); ("rfc5934", "contingency_public_key_decrypt_key");
  ("rfc5934", "tamp_apex_update"); ("rfc5934", "tamp_apex_update_confirm");
  ("rfc5934", "tamp_community_update"); ("rfc5934", "tamp_community_update_confirm");
  ("rfc5934", "tamp_error"); ("rfc5934", "tamp_sequence_number_adjust");
  ("rfc5934", "tamp_sequence_number_adjust_confirm"); ("rfc5934", "tamp_status_query");
  ("rfc5934", "tamp_status_response"); ("rfc5934", "tamp_update"); ("rfc5934", "tamp_update_confirm");
  ("rfc5934", "wrappedApexContinKey"); ("rfc5990", "kdf2"); ("rfc5990", "kdf3"); ("rfc5990", "kem_rsa");
  ("rfc5990", "rsa_kem"); ("rfc6032", "aa_content_decrypt_key_identifier");
  ("rfc6210", "mda_xor_md5_EXPERIMENT"); ("rfc6211", "aa_cmsAlgorithmProtection");
  ("rfc7030", "aa_asymmDecryptKeyID"); ("rfc7292", "friendlyName"); ("rfc7292", "localKeyId");
  ("rfc7292", "sdsiCertificate"); ("rfc7292", "x509CRL"); ("rfc7292", "x509Certificate");
  ("rfc7585", "naiRealm"); ("rfc7894", "estIdentityLinking"); ("rfc7894", "otpChallenge");
  ("rfc7894", "revocationChallenge"); ("rfc7906", "aa_cRLDistributionPoints");
  ("rfc7906", "aa_certificatePointers"); ("rfc7906", "aa_classification");
  ("rfc7906", "aa_contentDecryptKeyIdentifier"); ("rfc7906", "aa_keyAlgorithm");
  ("rfc7906", "aa_keyDistributionPeriod"); ("rfc7906", "aa_keyDurationPeriod");
  ("rfc7906", "aa_keyPackageReceivers_v2"); ("rfc7906", "aa_keyPackageType"); ("rfc7906", "aa_keyProvince_v2");
  ("rfc7906", "aa_keyPurpose"); ("rfc7906", "aa_keyValidityPeriod"); ("rfc7906", "aa_keyWrapAlgorithm");
  ("rfc7906", "aa_manifest"); ("rfc7906", "aa_pkiPath"); ("rfc7906", "aa_signatureUsage_v3");
  ("rfc7906", "aa_splitIdentifier"); ("rfc7906", "aa_transportKey"); ("rfc7906", "aa_tsecNomenclature");
  ("rfc7906", "aa_userCertificate"); ("rfc8398", "on_SmtpUTF8Mailbox"); ("rfc8419", "hashAlg_SHAKE256_LEN");
  ("rfc8479", "at_validation_parameters"); ("rfc8708", "pk_HSS_LMS_HashSig")].

(** id-cmc-statusInfoV2 is registered with an ambiguous type. *)
Definition statusInfoV2 : key := KeyOid [1; 3; 6; 1; 5; 5; 7; 7; 25]%N.

(** ** Checks *)

(** Components with defaults occur only in unconstrained SEQUENCEs. *)
Definition plain_defaults (t : asn1) : bool :=
  match t with
  | TSeq _ m fs => negb (ctruthy (spec m)) || negb (existsb (fun f => match fpres f with Def => true | _ => false end) fs)
  | _ => true
  end.
Definition recodes (t : asn1) (v : aval) : bool :=
  match encode t v with
  | Ok b => match decode t b with Ok (v', []) => res_eqb (encode t v') (Ok b) | _ => false end
  | _ => false
  end.
Definition fails (r : res bytes) : bool := match r with Err => true | _ => false end.
Definition value_ok (n : name2) (t : asn1) (v : aval) : bool :=
  match v with
  | VOid a => valid_oid a
  | _ => recodes t v || (mem2 templates n && fails (encode t v))
  end.
Definition schema_ok (s : name2 * (asn1 * option aval)) : bool :=
  match s with
  | (n, (t, v)) =>
      (wf t || mem2 ambiguous_types n)
      && ((everywhere alts_apart t || mem2 clashing n)
      && (everywhere names_ok t
      && ((everywhere governed t || mem2 misgoverned n)
      && (everywhere plain_defaults t
      && (everywhere open_plain t
      && match v with Some v => value_ok n t v | None => true end)))))
  end.
(** The value conforms and encodes, but does not decode to itself. *)
Definition lost (r : option (asn1 * option aval)) (v : aval) : bool :=
  match r with
  | Some (t, _) => conf None t v && match encode t v with
                                    | Ok b => match decode t b with Ok (v', _) => negb (aval_eqb v' v) | Err => true | _ => false end
                                    | _ => false
                                    end
  | None => false
  end.
Definition has_ungoverned (r : option (asn1 * option aval)) : bool :=
  match r with
  | Some (TSeq _ _ fs, _) => existsb (fun f => ungoverned f fs && match fpres f with Req => true | _ => false end) fs
  | _ => false
  end.
Definition clashes (r : option (asn1 * option aval)) : bool :=
  match r with Some (t, _) => negb (everywhere alts_apart t) | None => false end.
Definition unfinished (r : option (asn1 * option aval)) : bool :=
  match r with Some (t, Some v) => fails (encode t v) | _ => false end.
Definition entry_ok (q : string * (did * (key * (asn1 * option aval)))) : bool :=
  match q with (_, (_, (k, (t, _)))) => everywhere open_plain t && (wf t || key_eqb k statusInfoV2) end.

(** No type is higher than 21 (rfc6402.PKIData is). *)
Definition shallow (q : name2 * (asn1 * option aval)) : bool := Nat.leb (height (fst (snd q))) 21.
Definition shallow_entry (q : string * (did * (key * (asn1 * option aval)))) : bool :=
  match q with (_, (_, (_, (t, _)))) => Nat.leb (height t) 21 end.

Definition schema_checks (T : tbl) : bool :=
  (forallb shallow (schemas_of T) && forallb shallow_entry (table_of T))
  && (chains_ok T
  && (forallb schema_ok (schemas_of T)
  && (forallb (fun e : name2 * aval => lost (schema_in T (fst (fst e)) (snd (fst e))) (snd e)) ambiguous
  && (forallb (fun n : name2 => has_ungoverned (schema_in T (fst n) (snd n))) misgoverned
  && (forallb (fun n : name2 => clashes (schema_in T (fst n) (snd n))) clashing
  && (forallb (fun n : name2 => unfinished (schema_in T (fst n) (snd n))) templates
  && forallb entry_ok (table_of T))))))).

Lemma schemas_computed : match build load_order [] with Some T => schema_checks T | None => false end = true.
Proof. vm_cast_no_check (eq_refl true). Qed.

End codec.
