(** tools/ocspclient.py: the request it would send. *)
From Coq Require Import List String ZArith NArith Bool Lia.
From Verif Require Pem.Text Pem.Base64 Pem.Pem Pem.PemFacts.
From Verif Require Import Py.Syntax Asn1.Types Py.Eval Asn1.Bytes Asn1.EqbFacts Asn1.Der Asn1.Wf
  Load.Import Load.Computed Load.Schemas Load.Checked Load.CheckedFacts Spec.X680 Spec.X690 Spec.Octets Spec.Agree Spec.Conform Spec.Regular
  Spec.Catalogue Spec.Deviations Spec.Checked Spec.Facts Tools.Recode Tools.Layers Tools.Programs.
Import ListNotations.
Open Scope string_scope.
Open Scope list_scope.
Opaque T session.

Section codec.
Context {Cdc : codec}.

(** ** valueOnlyBitStringEncoder *)

(** A Python signature as far as it matters: are keywords accepted?  [def encodeValue( *args)]
    (ocspclient.py:37) accepts none. *)
Record signature := mkSig { accepts_keywords : bool }.
Definition encodeValue_signature := mkSig false.
(** f( *args, **kw): a keyword that is not accepted raises TypeError before the body runs. *)
Definition call_with {A} (f : signature) (kw : list string) (body : r A) : r A :=
  match kw with
  | [] => body
  | _ => if accepts_keywords f then body else Raise "TypeError"
  end.
(** ocspclient.py:37-41, the body: the contents octets without the first.
    BitStringEncoder.encodeValue returns three values, not two. *)
Definition encodeValue_body (bits : list bool) : r bytes := Raise "ValueError".
(** ocspclient.py:43-44: AbstractItemEncoder.encode passes its options on to encodeValue. *)
Definition value_only (bits : list bool) : r bytes :=
  call_with encodeValue_signature ["defMode"; "maxChunkSize"] (encodeValue_body bits).

(** ** The program *)

Inductive ending := Posted (b : bytes) | Died (e : string) | Unmodelled.
Definition raised {A} (x : res A) (k : A -> ending) : ending :=
  match x with Ok a => k a | Err => Died "PyAsn1Error" | Huge => Died "PyAsn1Error" | Unm => Unmodelled end.

(** getComponentByName *)
Definition sub (t : asn1) (v : aval) (n : string) : option (asn1 * aval) :=
  match component_type t n, component t v n with Some t', Some (Some w) => Some (t', w) | _, _ => None end.
Definition at_path (t : asn1) (v : aval) (p : list string) : option (asn1 * aval) :=
  fold_left (fun o n => match o with Some (t', w) => sub t' w n | None => None end) p (Some (t, v)).

(** :24 *)
Definition sha1oid : list N := [1; 3; 14; 3; 2; 26]%N.
(** :83-103, the object built (setComponentByName by name; written down as a value). *)
Definition request_value (name_hash key_hash : bytes) (serial : Z) : aval :=
  VSeq [Some (VSeq [Some (VInt 0); None;
                    Some (VList [VSeq [Some (VSeq [Some (VSeq [Some (VOid sha1oid); None]); Some (VOcts name_hash); Some (VOcts key_hash);
                                                   Some (VInt serial)]); None]]);
                    None]);
        None].

Section client.
  (** hashlib.sha1, and the contents of a key's bits (valueOnlyBitStringEncoder). *)
  Variables (sha1 : bytes -> bytes) (key_octets : list bool -> r bytes).

  (** :51-103 and the encoding at :160, for certificates of type [t].  The comparison of the
      names (:58) is one of values of the same type. *)
  Definition post_request (t tr : asn1) (issuer user : aval) : ending :=
    match at_path t issuer ["tbsCertificate"; "subject"], at_path t user ["tbsCertificate"; "issuer"],
          at_path t issuer ["tbsCertificate"; "subjectPublicKeyInfo"; "subjectPublicKey"], at_path t user ["tbsCertificate"; "serialNumber"] with
    | Some (_, subject), Some (tn, name), Some (_, VBits key), Some (_, VInt serial) =>
        if aval_eqb subject name then
          raised (encode tn name) (fun n =>
            match key_octets key with
            | OK k => raised (encode tr (request_value (sha1 n) (sha1 k) serial)) Posted
            | Raise e => Died e
            | Stuck _ => Unmodelled
            end)
        else Died "AssertionError"
    | _, _, _, _ => Unmodelled
    end.

  Definition ocsp_markers : Pem.markers := [(chars "-----BEGIN CERTIFICATE-----", chars "-----END CERTIFICATE-----")].
  (** :133-145: a certificate from the next PEM block.  Decoding an empty substrate raises. *)
  Definition next_certificate (t : asn1) (f : Text.text) (k : aval -> Text.text -> ending) : ending :=
    match Pem.readPemBlocksFromFile ocsp_markers f with
    | (Base64.Ok (_, s), f') => raised (decode t (Pem.octets s)) (fun vr => k (fst vr) f')
    | (Base64.Err _, _) => Died "Error"
    end.
  (** :133-162 *)
  Definition ocspclient (W : world) (f : Text.text) : ending :=
    match type_of W "rfc2459" "Certificate", type_of W "rfc2560" "OCSPRequest" with
    | Some t, Some tr =>
        next_certificate t f (fun issuer f' =>
        next_certificate t f' (fun user _ => post_request t tr issuer user))
    | _, _ => Unmodelled
    end.
End client.

(** ** It never posts anything *)

Lemma value_only_raises : forall bits, value_only bits = Raise "TypeError".
Proof. reflexivity. Qed.
Lemma never_posts : forall sha1 W f b, ocspclient sha1 value_only W f <> Posted b.
Proof.
  intros sha1 W f b. unfold ocspclient, next_certificate, raised. destruct (type_of W "rfc2459" "Certificate") as [t|]; [|discriminate].
  destruct (type_of W "rfc2560" "OCSPRequest") as [tr|]; [|discriminate].
  destruct (Pem.readPemBlocksFromFile ocsp_markers f) as [[[i s]|e] f']; [|discriminate]. destruct (decode t (Pem.octets s)) as [[v r]| | |]; try discriminate.
  cbn [fst]. destruct (Pem.readPemBlocksFromFile ocsp_markers f') as [[[i' s']|e] f'']; [|discriminate].
  destruct (decode t (Pem.octets s')) as [[v' r']| | |]; try discriminate. cbn [fst]. unfold post_request, raised.
  destruct (at_path t v ["tbsCertificate"; "subject"]) as [[t1 subject]|]; [|discriminate].
  destruct (at_path t v' ["tbsCertificate"; "issuer"]) as [[tn name]|]; [|discriminate].
  destruct (at_path t v ["tbsCertificate"; "subjectPublicKeyInfo"; "subjectPublicKey"]) as [[t2 []]|]; try discriminate.
  destruct (at_path t v' ["tbsCertificate"; "serialNumber"]) as [[t3 []]|]; try discriminate.
  destruct (aval_eqb subject name); [|discriminate]. destruct (encode tn name); try discriminate.
Qed.

(** ** With the key's octets at hand it would post the request of RFC 2560 *)

(** Certificates by their parts: what the client looks at, and the rest. *)
Definition issuing (ver ser sg iss vl : option aval) (name : aval) (alg : option aval) (key : list bool) (more rest : list (option aval)) : aval :=
  VSeq (Some (VSeq ([ver; ser; sg; iss; vl; Some name; Some (VSeq [alg; Some (VBits key)])] ++ more)) :: rest).
Definition issued (ver : option aval) (serial : Z) (sg : option aval) (name : aval) (more rest : list (option aval)) : aval :=
  VSeq (Some (VSeq ([ver; Some (VInt serial); sg; Some name] ++ more)) :: rest).

(** The schema objects. *)
Definition nothing : asn1 := TOf false (mkM [] (CInter []) [] (CInter [])) None.
Definition looked_up (m x : string) : asn1 :=
  match session [m] with OK W => match schema W m x with Some (t, _) => t | None => nothing end | _ => nothing end.
Transparent T session.
Definition certificate_type : asn1 := Eval vm_compute in looked_up "rfc2459" "Certificate".
Definition ocsp_type : asn1 := Eval vm_compute in looked_up "rfc2560" "OCSPRequest".
Definition name_type : asn1 := Eval vm_compute in looked_up "rfc2459" "Name".
Lemma certificate_checked : check ["rfc2459"] "rfc2459" "Certificate" (fun _ t => asn1_eqb t certificate_type) = true.
Proof. vm_compute. reflexivity. Qed.
Definition ocsp_ok : bool :=
  match session ["rfc2560"] with OK W => opt_eqb entry_eqb (schema W "rfc2560" "OCSPRequest") (Some (ocsp_type, None)) | _ => false end.
Lemma ocsp_checked : ocsp_ok = true.
Proof. vm_compute. reflexivity. Qed.
Opaque T session.
Lemma certificate_is : forall h W, session h = OK W -> loaded W "rfc2459" <> None -> exists o, schema W "rfc2459" "Certificate" = Some (certificate_type, o).
Proof.
  intros h W E L. destruct (check_everywhere _ _ _ _ certificate_checked h W E L) as (t & o & HS & K). apply asn1_eqb_sound in K. subst t. exists o. exact HS.
Qed.
Lemma ocsp_is : forall h W, session h = OK W -> loaded W "rfc2560" <> None -> schema W "rfc2560" "OCSPRequest" = Some (ocsp_type, None).
Proof.
  intros h W E L. pose proof ocsp_checked as C. unfold ocsp_ok in C. destruct (session ["rfc2560"]) as [W0|e|e] eqn:E0; [|discriminate C|discriminate C].
  destruct (schema W0 "rfc2560" "OCSPRequest") as [[t o]|] eqn:HS; [|discriminate C]. cbn [opt_eqb] in C. apply entry_eqb_iff in C.
  assert (Q : Some (t, o) = Some (ocsp_type, None)) by (f_equal; exact C).
  exact (eq_trans (schema_is h W _ _ E L) (eq_trans (eq_sym (schema_is _ W0 _ _ E0 (schema_loaded _ _ _ _ HS))) (eq_trans HS Q))).
Qed.

Lemma issuing_path : forall ver ser sg iss vl name alg key more rest,
  at_path certificate_type (issuing ver ser sg iss vl name alg key more rest) ["tbsCertificate"; "subject"] = Some (name_type, name)
  /\ exists t, at_path certificate_type (issuing ver ser sg iss vl name alg key more rest) ["tbsCertificate"; "subjectPublicKeyInfo"; "subjectPublicKey"]
               = Some (t, VBits key).
Proof. intros. split; [|eexists]; vm_compute; reflexivity. Qed.
Lemma issued_path : forall ver serial sg name more rest,
  at_path certificate_type (issued ver serial sg name more rest) ["tbsCertificate"; "issuer"] = Some (name_type, name)
  /\ exists t, at_path certificate_type (issued ver serial sg name more rest) ["tbsCertificate"; "serialNumber"] = Some (t, VInt serial).
Proof. intros. split; [|eexists]; vm_compute; reflexivity. Qed.

Definition ocsp_definition : sty := Eval vm_compute in match definition "rfc2560" "OCSPRequest" with Some s => s | None => AAny end.
Lemma ocsp_defined : definition "rfc2560" "OCSPRequest" = Some ocsp_definition.
Proof. vm_compute. reflexivity. Qed.
Lemma request_has : forall nh kh z, forallb (fun x => N.ltb x 256) nh = true -> forallb (fun x => N.ltb x 256) kh = true ->
  has ocsp_definition (request_value nh kh z) = true.
Proof.
  intros nh kh z H1 H2. unfold ocsp_definition, request_value. cbn -[forallb N.ltb arcs_ok]. cbn [forallb]. rewrite H1, H2. reflexivity.
Qed.
Lemma request_spares : forall nh kh z, spares (without ["requestorName"]) ocsp_definition (request_value nh kh z) = true.
Proof. intros. vm_compute. reflexivity. Qed.
Lemma shortest_natural : forall z, (0 <= z)%Z -> shortest z = true.
Proof. intros z H. unfold shortest. destruct (Z.ltb_spec z 0); [lia|]. reflexivity. Qed.
Lemma request_regular : forall nh kh z, (0 <= z)%Z -> regular false ocsp_definition (request_value nh kh z) = true.
Proof.
  intros nh kh z H. apply shortest_natural in H. unfold ocsp_definition, request_value. cbn -[shortest]. rewrite H. reflexivity.
Qed.
Lemma ocsp_deviates : In ("rfc2560", "OCSPRequest") deviating /\ exempted ("rfc2560", "OCSPRequest") = Some (without ["requestorName"]).
Proof. split; [apply mem2_in|]; vm_compute; reflexivity. Qed.

Lemma post_is : forall sha1 key_octets ver ser sg iss vl name alg key more rest ver' serial sg' more' rest' n tr,
  encode name_type name = Ok n ->
  post_request sha1 key_octets certificate_type tr (issuing ver ser sg iss vl name alg key more rest) (issued ver' serial sg' name more' rest')
  = match key_octets key with
    | OK k => raised (encode tr (request_value (sha1 n) (sha1 k) serial)) Posted
    | Raise e => Died e
    | Stuck _ => Unmodelled
    end.
Proof.
  intros sha1 ko ver ser sg iss vl name alg key more rest ver' serial sg' more' rest' n tr EN. unfold post_request.
  destruct (issuing_path ver ser sg iss vl name alg key more rest) as [P1 [t1 P2]]. rewrite P1, P2.
  destruct (issued_path ver' serial sg' name more' rest') as [P3 [t3 P4]]. rewrite P3, P4.
  rewrite (proj2 eqb_refl name), EN. reflexivity.
Qed.
(** A file of two blocks, each with a certificate (and possibly other octets after it). *)
Lemma client_reads : forall sha1 key_octets h W, session h = OK W -> loaded W "rfc2459" <> None -> loaded W "rfc2560" <> None ->
  forall b1 b2 v1 v2 e1 e2 j1 j2 tail, PemFacts.block_ok ocsp_markers b1 -> PemFacts.block_ok ocsp_markers b2 ->
  conf None certificate_type v1 = true -> encode certificate_type v1 = Ok e1 -> PemFacts.b_data b1 = e1 ++ j1 ->
  conf None certificate_type v2 = true -> encode certificate_type v2 = Ok e2 -> PemFacts.b_data b2 = e2 ++ j2 ->
  ocspclient sha1 key_octets W (PemFacts.block_text b1 ++ PemFacts.block_text b2 ++ tail)
  = post_request sha1 key_octets certificate_type ocsp_type v1 v2.
Proof.
  intros sha1 ko h W E L1 L2 b1 b2 v1 v2 e1 e2 j1 j2 tail B1 B2 C1 E1 D1 C2 E2 D2. unfold ocspclient, type_of.
  destruct (certificate_is h W E L1) as [o HS]. rewrite HS, (ocsp_is h W E L2). cbn [option_map fst].
  assert (N : ~ In ("rfc2459", "Certificate") ambiguous_types) by (apply not_ambiguous; vm_compute; reflexivity).
  assert (RD : forall b tl v e j k, PemFacts.block_ok ocsp_markers b -> conf None certificate_type v = true -> encode certificate_type v = Ok e ->
    PemFacts.b_data b = e ++ j -> next_certificate certificate_type (PemFacts.block_text b ++ tl) k = k v tl).
  { intros b tl v e j k HB C EN D. unfold next_certificate. unfold PemFacts.block_text.
    destruct HB as (G1 & G2 & Ho & Hc & Hp & Hk & Hd & Hw).
    pose proof (PemFacts.armour_roundtrip ocsp_markers (PemFacts.b_pre b) (PemFacts.b_start b) (PemFacts.b_stop b) (PemFacts.b_k b)
      (PemFacts.b_data b) (PemFacts.b_lines b) tl (PemFacts.b_idx b) G1 G2 Ho Hc Hp Hk Hd Hw) as R.
    match goal with |- context [Pem.readPemBlocksFromFile ocsp_markers ?f] => change (Pem.readPemBlocksFromFile ocsp_markers f = (Base64.Ok (Z.of_nat (PemFacts.b_idx b), Pem.Bytes (PemFacts.b_data b)), tl)) in R; rewrite R end.
    cbn [Pem.octets]. rewrite D, (type_round_trip h W _ _ certificate_type o E HS N v e j C EN). reflexivity. }
  rewrite (RD b1 _ v1 e1 j1 _ B1 C1 E1 D1). rewrite (RD b2 _ v2 e2 j2 _ B2 C2 E2 D2). reflexivity.
Qed.
Lemma client_posts : forall sha1 key_octets h W, session h = OK W -> loaded W "rfc2560" <> None -> forall ver ser sg iss vl name alg key more rest ver' serial sg' more' rest' n k,
  encode name_type name = Ok n -> key_octets key = OK k -> (0 <= serial)%Z ->
  (forall b, Forall (fun x => x < 256)%N (sha1 b)) ->
  post_request sha1 key_octets certificate_type ocsp_type (issuing ver ser sg iss vl name alg key more rest) (issued ver' serial sg' name more' rest')
  = match DER ocsp_definition (request_value (sha1 n) (sha1 k) serial) with Some b => Posted b | None => Died "PyAsn1Error" end.
Proof.
  intros sha1 ko h W E L2 ver ser sg iss vl name alg key more rest ver' serial sg' more' rest' n k EN HK SE HH.
  rewrite (post_is sha1 ko ver ser sg iss vl name alg key more rest ver' serial sg' more' rest' n ocsp_type EN), HK.
  assert (B : forall b, forallb (fun x => N.ltb x 256) (sha1 b) = true).
  { intro b. apply forallb_forall. intros x I. specialize (HH b). rewrite Forall_forall in HH. apply N.ltb_lt, HH, I. }
  rewrite (confined_encodes h W _ _ E _ _ ocsp_defined (ocsp_is h W E L2) _ (proj1 ocsp_deviates) (proj2 ocsp_deviates) _
    (request_has _ _ serial (B n) (B k)) (request_spares _ _ serial) (request_regular _ _ serial SE)).
  destruct (DER ocsp_definition (request_value (sha1 n) (sha1 k) serial)); reflexivity.
Qed.

End codec.
