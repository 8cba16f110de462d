(** Components whose type depends on another component of the same SEQUENCE: "ANY DEFINED BY",
    table constraints such as ({SupportedAttributes}{@type}), and prose to that effect.  A row
    gives the type of the RFC, its components, the dependent one, the one it depends on, and
    the registry of /repo that stands for the RFC's table. *)
From Coq Require Import List String Bool.
From Verif Require Import Asn1.Types Py.Eval Asn1.Bytes Asn1.Der Load.Import Load.Table Load.Schemas Load.Checked Spec.X680.
Import ListNotations.
Open Scope string_scope.
Open Scope list_scope.

Record slot_row := slot { sl_type : name2; sl_names : list string; sl_component : string; sl_governor : string; sl_registry : did }.

Definition slots : list slot_row := [
slot ("rfc2315", "ContentInfo") ["contentType"; "content"] "content" "contentType" ("rfc2315", "contentTypeMap");
  slot ("rfc2459", "AttributeTypeAndValue") ["type"; "value"] "value" "type" ("rfc2459", "certificateAttributesMap");
  slot ("rfc2459", "Extension") ["extnID"; "critical"; "extnValue"]
    "extnValue" "extnID" ("rfc2459", "certificateExtensionsMap");
  slot ("rfc3739", "QCStatement") ["statementId"; "statementInfo"]
    "statementInfo" "statementId" ("rfc3739", "qcStatementMap");
  slot ("rfc5126", "CommitmentTypeQualifier") ["commitmentTypeIdentifier"; "qualifier"]
    "qualifier" "commitmentTypeIdentifier" ("rfc5126", "commitmentQualifierMap");
  slot ("rfc5126", "OtherRevRefs") ["otherRevRefType"; "otherRevRefs"]
    "otherRevRefs" "otherRevRefType" ("rfc5126", "otherRevRefMap");
  slot ("rfc5126", "OtherRevVals") ["otherRevValType"; "otherRevVals"]
    "otherRevVals" "otherRevValType" ("rfc5126", "otherRevValMap");
  slot ("rfc5126", "SigPolicyQualifierInfo") ["sigPolicyQualifierId"; "sigQualifier"]
    "sigQualifier" "sigPolicyQualifierId" ("rfc5126", "sigQualifiersMap");
  slot ("rfc5275", "GLAQueryResponse") ["glaResponseType"; "glaResponseValue"]
    "glaResponseValue" "glaResponseType" ("rfc5275", "glaQueryRRMap");
  slot ("rfc5275", "GLAQueryRequest") ["glaRequestType"; "glaRequestValue"]
    "glaRequestValue" "glaRequestType" ("rfc5275", "glaQueryRRMap");
  slot ("rfc5280", "AlgorithmIdentifier") ["algorithm"; "parameters"]
    "parameters" "algorithm" ("rfc5280", "algorithmIdentifierMap");
  slot ("rfc5280", "AnotherName") ["type-id"; "value"] "value" "type-id" ("rfc5280", "anotherNameMap");
  slot ("rfc5280", "Attribute") ["type"; "values"] "values" "type" ("rfc5280", "certificateAttributesMap");
  slot ("rfc5280", "AttributeTypeAndValue") ["type"; "value"] "value" "type" ("rfc5280", "certificateAttributesMap");
  slot ("rfc5280", "ExtensionAttribute") ["extension-attribute-type"; "extension-attribute-value"]
    "extension-attribute-value" "extension-attribute-type" ("rfc5280", "oraddressExtensionAttributeMap");
  slot ("rfc5280", "PolicyQualifierInfo") ["policyQualifierId"; "qualifier"]
    "qualifier" "policyQualifierId" ("rfc5280", "policyQualifierInfoMap");
  slot ("rfc5652", "Attribute") ["attrType"; "attrValues"] "attrValues" "attrType" ("rfc5652", "cmsAttributesMap");
  slot ("rfc6402", "TaggedAttribute") ["bodyPartID"; "attrType"; "attrValues"]
    "attrValues" "attrType" ("rfc5652", "cmsAttributesMap");
  slot ("rfc5652", "ContentInfo") ["contentType"; "content"]
    "content" "contentType" ("rfc5652", "cmsContentTypesMap");
  slot ("rfc5652", "OtherCertificateFormat") ["otherCertFormat"; "otherCert"]
    "otherCert" "otherCertFormat" ("rfc5652", "otherCertFormatMap");
  slot ("rfc5652", "OtherKeyAttribute") ["keyAttrId"; "keyAttr"]
    "keyAttr" "keyAttrId" ("rfc5652", "otherKeyAttributesMap");
  slot ("rfc5652", "OtherRecipientInfo") ["oriType"; "oriValue"]
    "oriValue" "oriType" ("rfc5652", "otherRecipientInfoMap");
  slot ("rfc5652", "OtherRevocationInfoFormat") ["otherRevInfoFormat"; "otherRevInfo"]
    "otherRevInfo" "otherRevInfoFormat" ("rfc5652", "otherRevInfoFormatMap");
  slot ("rfc5751", "SMIMECapability") ["capabilityID"; "parameters"]
    "parameters" "capabilityID" ("rfc5751", "smimeCapabilityMap");
  slot ("rfc5755", "SecurityCategory") ["type"; "value"] "value" "type" ("rfc5755", "securityCategoryMap");
  slot ("rfc6031", "SKeyAttribute") ["attrType"; "attrValues"]
    "attrValues" "attrType" ("rfc6031", "sKeyAttributesMap");
  slot ("rfc6031", "SKeyPkgAttribute") ["attrType"; "attrValues"]
    "attrValues" "attrType" ("rfc6031", "sKeyPkgAttributesMap");
  slot ("rfc7292", "SafeBag") ["bagId"; "bagValue"; "bagAttributes"]
    "bagValue" "bagId" ("rfc7292", "pkcs12BagTypeMap");
  slot ("rfc7292", "CRLBag") ["crlId"; "crlValue"] "crlValue" "crlId" ("rfc7292", "pkcs12CRLBagMap");
  slot ("rfc7292", "CertBag") ["certId"; "certValue"] "certValue" "certId" ("rfc7292", "pkcs12CertBagMap");
  slot ("rfc7292", "SecretBag") ["secretTypeId"; "secretValue"]
    "secretValue" "secretTypeId" ("rfc7292", "pkcs12SecretBagMap")].

(** Open in /repo, but not as the RFC has it: rfc2315's encryptedContent is ciphertext and not
    a value of the type that contentType names; the other two name a governor that does not
    exist. *)
Definition misplaced : list slot_row := [
  slot ("rfc2315", "EncryptedContentInfo") ["contentType"; "contentEncryptionAlgorithm"; "encryptedContent"]
    "encryptedContent" "contentType" ("rfc2315", "contentTypeMap");
  slot ("rfc2315", "AttributeValueAssertion") ["attributeType"; "attributeValue"]
    "attributeValue" "type" ("rfc2459", "certificateAttributesMap");
  slot ("rfc7292", "BAG_TYPE") ["id"; "unnamed1"] "unnamed1" "attrType" ("rfc7292", "pkcs12BagTypeMap")].
(** Defined by another component in the RFC, but not open in /repo: type, component. *)
Definition unopened : list (name2 * string) := [
  (("rfc2459", "AlgorithmIdentifier"), "parameters"); (("rfc2459", "AnotherName"), "value");
  (("rfc2459", "PolicyQualifierInfo"), "qualifier"); (("rfc2459", "Attribute"), "vals");
  (("rfc4210", "InfoTypeAndValue"), "infoValue"); (("rfc4211", "AttributeTypeAndValue"), "value");
  (("rfc5280", "Extension"), "extnValue"); (("rfc6402", "OtherMsg"), "otherMsgValue")].

(** The open components of a SEQUENCE are as in a row. *)
Definition row_fits (fs : list field) (f : field) (g : string) (d : did) (r : slot_row) : bool :=
  String.eqb (fname f) (sl_component r) && String.eqb g (sl_governor r) && did_eqb d (sl_registry r)
  && list_eqb String.eqb (fnames fs) (sl_names r).
Definition slotted (rows : list slot_row) (t : asn1) : bool :=
  match t with
  | TSeq _ _ fs => forallb (fun f => match fopen f with Some (g, d) => existsb (row_fits fs f g d) rows | None => true end) fs
  | _ => true
  end.
(** The type of a row has the open component; the governor is not open itself. *)
Definition named (n : string) (f : field) : bool := String.eqb (fname f) n.
Definition has_slot (r : slot_row) (t : asn1) : bool :=
  match t with
  | TSeq _ _ fs => list_eqb String.eqb (fnames fs) (sl_names r)
      && match find (named (sl_component r)) fs with
         | Some f => match fopen f with Some (g, d) => String.eqb g (sl_governor r) && did_eqb d (sl_registry r) | None => false end
         | None => false
         end
      && forallb (fun f => negb (named (sl_governor r) f) || match fopen f with None => true | Some _ => false end) fs
  | _ => false
  end.
(** The type has that component, as octets: not open. *)
Definition closed (x : string) (t : asn1) : bool :=
  match t with
  | TSeq _ _ fs => existsb (fun f => String.eqb (fname f) x) fs && forallb (fun f => match fopen f with None => true | Some _ => false end) fs
  | _ => false
  end.
Definition slot_in (T : tbl) (r : slot_row) : bool :=
  match schema_in T (fst (sl_type r)) (snd (sl_type r)) with Some (t, _) => has_slot r t | None => false end.
Definition closed_in (T : tbl) (q : name2 * string) : bool :=
  match schema_in T (fst (fst q)) (snd (fst q)) with Some (t, _) => closed (snd q) t | None => false end.
