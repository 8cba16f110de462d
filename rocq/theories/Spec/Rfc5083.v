(** RFC 5083, section 3 and appendix: CMS-AuthEnvelopedData (IMPLICIT TAGS). *)
From Coq Require Import List String ZArith NArith.
From Verif Require Import Asn1.Types Spec.X680.
From Verif Require Import Spec.Rfc5652.
Import ListNotations.
Open Scope string_scope.
Open Scope list_scope.

Definition AuthEnvelopedData := SEQUENCE [
  req "version" CMSVersion;
  opt "originatorInfo" (implicit 0 OriginatorInfo);
  req "recipientInfos" RecipientInfos;
  req "authEncryptedContentInfo" EncryptedContentInfo;
  opt "authAttrs" (implicit 1 AuthAttributes);
  req "mac" MessageAuthenticationCode;
  opt "unauthAttrs" (implicit 2 UnauthAttributes)].

Definition rfc5083 : list (string * sty) := [
  ("AuthEnvelopedData", AuthEnvelopedData)].
