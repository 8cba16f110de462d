(** Property C68: tools/ocspclient.py run from its source.

    Gen/ScriptOcsp.v holds the statements of the program; Tools/ScriptOcsp.v runs them.
    [program W sha1 argv ocspclient_py cb ocspclient_py (mkSt [] None f [])]: a run with the
    arguments [argv] on the text [f].  [cb]: whether pyasn1.codec.cer.encoder has a
    BitStringEncoder, the base of the class at ocspclient.py:29 (versions of pyasn1 differ). *)
From Coq Require Import List String ZArith NArith Bool Lia.
From Verif Require Pem.Text Pem.Base64 Pem.Pem Pem.PemFacts.
From Verif Require Import Py.Syntax Asn1.Types Py.Eval Asn1.Bytes Asn1.Der Asn1.Wf Load.Import Load.Computed Load.Schemas
  Tools.Layers Tools.Programs Tools.Formats Tools.Ocsp Tools.OcspAnswer Gen.ScriptOcsp Tools.ScriptOcsp Tools.ScriptOcspAnswer Props.ToolProps.
Import ListNotations.
Open Scope string_scope.
Open Scope list_scope.

(** Where the class cannot be defined, the program ends there on any arguments and input: it
    prints nothing, not even its usage, and reads nothing. *)
Theorem C68_class_refuted : forall {Cdc : codec} W sha1 argv f,
  exists g, program W sha1 argv ocspclient_py false ocspclient_py (mkSt [] None f []) = Dies "AttributeError" (mkSt g None f []).
Proof. intro Cdc. exact no_base. Qed.
Print Assumptions C68_class_refuted.

(** Where it can, the source ends as the model of Tools/Ocsp.v does, with nothing printed. *)
Theorem C68_request : forall {Cdc : codec} W sha1 prog url f,
  match ocspclient sha1 value_only W f with
  | Died e => exists s, program W sha1 [prog; url] ocspclient_py true ocspclient_py (mkSt [] None f []) = Dies e s /\ ScriptOcsp.said s = []
  | Posted _ => False
  | Unmodelled => True
  end.
Proof. intro Cdc. exact request_source. Qed.
Print Assumptions C68_request.

(** Given the PEM certificates of an issuer and of one it issued, the source ends with an
    exception under either kind of pyasn1: AttributeError, or TypeError. *)
Theorem C68_dies_refuted : forall {Cdc : codec} sha1 h W, session h = OK W -> loaded W "rfc2459" <> None -> loaded W "rfc2560" <> None ->
  forall b1 b2 v1 v2 e1 e2 j1 j2 tail, PemFacts.block_ok ocsp_markers b1 -> PemFacts.block_ok ocsp_markers b2 ->
  conf None certificate_type v1 = true -> encode certificate_type v1 = Ok e1 -> PemFacts.b_data b1 = e1 ++ j1 ->
  conf None certificate_type v2 = true -> encode certificate_type v2 = Ok e2 -> PemFacts.b_data b2 = e2 ++ j2 ->
  forall ver ser sg iss vl name alg key more rest ver' serial sg' more' rest' n,
  v1 = issuing ver ser sg iss vl name alg key more rest -> v2 = issued ver' serial sg' name more' rest' -> encode name_type name = Ok n ->
  forall cb prog url, exists s,
  program W sha1 [prog; url] ocspclient_py cb ocspclient_py (mkSt [] None (PemFacts.block_text b1 ++ PemFacts.block_text b2 ++ tail) [])
  = Dies (if cb then "TypeError" else "AttributeError") s.
Proof.
  intros Cdc sha1 h W E L1 L2 b1 b2 v1 v2 e1 e2 j1 j2 tail B1 B2 C1 E1 D1 C2 E2 D2 ver ser sg iss vl name alg key more rest ver' serial sg' more' rest' n V1 V2 EN [|] prog url.
  - pose proof (C68_request W sha1 prog url (PemFacts.block_text b1 ++ PemFacts.block_text b2 ++ tail)) as R.
    rewrite (C52_dies sha1 h W E L1 L2 b1 b2 v1 v2 e1 e2 j1 j2 tail B1 B2 C1 E1 D1 C2 E2 D2 ver ser sg iss vl name alg key more rest ver' serial sg' more' rest' n V1 V2 EN) in R.
    destruct R as (s & R & _). exists s. exact R.
  - destruct (C68_class_refuted W sha1 [prog; url] (PemFacts.block_text b1 ++ PemFacts.block_text b2 ++ tail)) as (g & R). eexists. exact R.
Qed.
Print Assumptions C68_dies_refuted.

(** With another number of arguments it prints its usage (if the class can be defined), reads
    nothing and exits with -1. *)
Theorem C68_usage : forall {Cdc : codec} W sha1 prog args f, List.length args <> 1%nat ->
  exists g, program W sha1 (prog :: args) ocspclient_py true ocspclient_py (mkSt [] None f []) =
  Exits (-1) (mkSt g None f [OFormat ("Usage:" ++ String (Ascii.ascii_of_nat 10) "$ cat CACertificate.pem userCertificate.pem | %s <ocsp-responder-url>") (OText prog)]).
Proof. intro Cdc. exact ocsp_usage. Qed.
Print Assumptions C68_usage.

(** The statements that handle a response, run on any octets, print the line or raise the
    exception of the model of Tools/OcspAnswer.v. *)
Theorem C68_answer : forall {Cdc : codec} h W, session h = OK W -> loaded W "rfc2560" <> None -> forall sha1 argv f response,
  match ocsp_answer W response with
  | Line serial status produced till => exists s t1 t2 t3, from_response W sha1 argv true response (mkSt [] None f []) = Goes tt s /\
      ScriptOcsp.said s = [OFormat ("Certificate ID %s is %s at %s till %s" ++ String (Ascii.ascii_of_nat 10) "")
                            (OTuple [OObj t1 (Some (VInt serial)); OStr status; OObj t2 (Some produced); OObj t3 (Some till)])]
  | Crashed e => exists s, from_response W sha1 argv true response (mkSt [] None f []) = Dies e s /\ ScriptOcsp.said s = []
  | Beyond => True
  end.
Proof. intro Cdc. exact answer_source. Qed.
Print Assumptions C68_answer.

(** In the terms of RFC 6960: what the source prints about a successful basic response. *)
Theorem C68_prints : forall {Cdc : codec} h W, session h = OK W -> loaded W "rfc2560" <> None ->
  forall e b w e' junk junk', encodes response_format (ocsp_response 0 [1; 3; 6; 1; 5; 5; 7; 48; 1; 1]%N b) e -> b = e' ++ junk' -> encodes basic_format w e' ->
  forall serial status produced this, OcspAnswer.said w = Some (serial, status, produced, this) ->
  forall sha1 argv f, exists s t1 t2 t3, from_response W sha1 argv true (e ++ junk) (mkSt [] None f []) = Goes tt s /\
  ScriptOcsp.said s = [OFormat ("Certificate ID %s is %s at %s till %s" ++ String (Ascii.ascii_of_nat 10) "")
                        (OTuple [OObj t1 (Some (VInt serial)); OStr status; OObj t2 (Some produced); OObj t3 (Some this)])].
Proof.
  intros Cdc h W E L e b w e' junk junk' H1 H2 H3 serial status produced this HW sha1 argv f.
  pose proof (C68_answer h W E L sha1 argv f (e ++ junk)) as R. rewrite (C57_ocspclient_prints h W E L e b w e' junk junk' H1 H2 H3), HW in R. exact R.
Qed.
Print Assumptions C68_prints.

(** Two certificates, a text without any, no arguments; and a response that is no success. *)
Example C68_ex : forall {Cdc : codec}, during ["rfc2459"; "rfc2560"] (fun W =>
    match program W (fun _ => []) [chars "ocspclient.py"; chars "http://a"] ocspclient_py true ocspclient_py (mkSt [] None (certificate_file 1 ++ certificate_file 5) []),
          program W (fun _ => []) [chars "ocspclient.py"; chars "http://a"] ocspclient_py true ocspclient_py (mkSt [] None (chars "none") []),
          program W (fun _ => []) [chars "ocspclient.py"] ocspclient_py true ocspclient_py (mkSt [] None [] []),
          from_response W (fun _ => []) [] true [48; 3; 10; 1; 3]%N (mkSt [] None [] []) with
    | Dies e1 _, Dies e2 _, Exits z _, Dies e3 _ =>
        String.eqb e1 "TypeError" && String.eqb e2 "PyAsn1Error" && Z.eqb z (-1) && String.eqb e3 "AssertionError"
    | _, _, _, _ => false
    end) = true.
Proof. intro Cdc. destruct Cdc; vm_compute; reflexivity. Qed.
