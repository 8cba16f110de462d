(** Properties C21-C29, C33, C37, C39, C40, C44, C53, C55 and C64: encoding and decoding with the types of
    the package.

    Vocabulary: [session h] and [loaded] as in ImportProps; [schema W m x] is the schema
    object m.x (m.x() if it is a class) and the value it carries, if any; [encode t v] and
    [decode t s] are der.encoder.encode and der.decoder.decode(s, asn1Spec=t), with results
    [Ok], [Err] (an exception), [Huge] (an item of 256^126 octets or more: an exception) and
    [Unm] (outside the model); [conf None t v]: [v] is a value of type [t], in canonical form
    where DER demands one; [inside u t]: type [u] occurs in type [t]; [codec]: which of the two
    decoders of BOOLEAN, BIT STRING and OCTET STRING is in use (Asn1/Codec.v). *)
From Coq Require Import List String ZArith NArith Bool Lia.
From Verif Require Import Py.Syntax Asn1.Types Py.Eval Asn1.EqbFacts Gen.All
  Asn1.Bytes Asn1.Der Asn1.Wf Asn1.Open Asn1.Total Asn1.Inside Asn1.Defaults Asn1.OpenDepth Asn1.Opening Asn1.Nesting
  Load.Import Load.Computed Load.Schemas Load.Checked Load.CheckedFacts Load.MoreImports Load.Deep.
Import ListNotations.
Open Scope string_scope.
Open Scope list_scope.

(** In the examples, [check h m x f]: after the imports [h], [f] holds of the type m.x. *)
Definition yields (r : res (aval * bytes)) (v : aval) (rest : bytes) : bool :=
  match r with Ok (w, r') => aval_eqb w v && list_eqb N.eqb r' rest | _ => false end.
(** tests/test_rfc2560.py, OCSPRequestTestCase *)
Definition ocsp_request : bytes := [48;106;48;104;48;65;48;63;48;61;48;9;6;5;43;14;3;2;26;5;0;4;20;183;102;179;21;244;46;67;
  146;141;55;104;125;119;112;70;94;166;152;55;194;4;20;146;164;117;44;164;158;190;129;68;235;121;252;138;197;149;165;235;16;
  117;115;2;4;53;222;244;207;162;35;48;33;48;31;6;9;43;6;1;5;5;7;48;1;2;4;18;4;16;99;116;147;162;33;111;68;40;145;132;44;
  211;95;254;183;64]%N.

(** C21: every value of every type but the five listed encodes, and decodes to itself. *)
Theorem C21_round_trip : forall {Cdc : codec} h W m x t o, session h = OK W -> schema W m x = Some (t, o) -> ~ In (m, x) ambiguous_types ->
  forall v, conf None t v = true ->
  encode t v = Huge \/ exists bs, encode t v = Ok bs /\ decode t bs = Ok (v, []).
Proof. intro Cdc.
  intros h W m x t o E HS N v C. destruct (type_encodes h W m x t o E HS N v C) as [H|(bs & H)]; [left; exact H|right].
  exists bs. split; [exact H|]. rewrite <- (app_nil_r bs). exact (type_round_trip h W m x t o E HS N v bs [] C H).
Qed.
Print Assumptions C21_round_trip.

Example C21_ex : forall {Cdc : codec}, check ["rfc2560"] "rfc2560" "OCSPRequest" (fun _ t =>
  match decode t ocsp_request with
  | Ok (v, []) => conf None t v && res_eqb (encode t v) (Ok ocsp_request)
  | _ => false
  end) = true /\ ~ In ("rfc2560", "OCSPRequest") ambiguous_types.
Proof. intro Cdc.
  split; [vm_compute; reflexivity|]. intro H. repeat (destruct H as [H|H]; [discriminate H|]). exact H.
Qed.

(** C22: whatever follows the encoding is left over. *)
Theorem C22_self_delimiting : forall {Cdc : codec} h W m x t o, session h = OK W -> schema W m x = Some (t, o) -> ~ In (m, x) ambiguous_types ->
  forall v bs rest, conf None t v = true -> encode t v = Ok bs -> decode t (bs ++ rest) = Ok (v, rest).
Proof. intro Cdc. exact type_round_trip. Qed.
Print Assumptions C22_self_delimiting.

Example C22_ex : forall {Cdc : codec}, check ["rfc1155"] "rfc1155" "IpAddress" (fun _ t =>
  conf None t (VOcts [10; 0; 0; 1]%N) && res_eqb (encode t (VOcts [10; 0; 0; 1]%N)) (Ok [64; 4; 10; 0; 0; 1]%N)
  && yields (decode t [64; 4; 10; 0; 0; 1; 64; 4]%N) (VOcts [10; 0; 0; 1]%N) [64; 4]%N) = true.
Proof. intro Cdc. vm_compute. reflexivity. Qed.

(** C23: no encoding is a prefix of another value's. *)
Theorem C23_prefix_free : forall h W m x t o, session h = OK W -> schema W m x = Some (t, o) -> ~ In (m, x) ambiguous_types ->
  forall v w bv bw rest, conf None t v = true -> conf None t w = true -> encode t v = Ok bv -> encode t w = Ok bw ->
  bw = bv ++ rest -> v = w /\ rest = [].
Proof. exact (type_prefix_free (Cdc := false)). Qed.
Print Assumptions C23_prefix_free.

Example C23_ex : check ["rfc5280"] "rfc5280" "KeyUsage" (fun _ t =>
  conf None t (VBits [true; false]) && conf None t (VBits [true])
  && negb (res_eqb (encode t (VBits [true; false])) (encode t (VBits [true])))) = true.
Proof. vm_compute. reflexivity. Qed.

(** C24: the exceptions are exceptions. *)
Theorem C24_ambiguous_types_lose_values_refuted : forall {Cdc : codec} h W m x v t o,
  session h = OK W -> In ((m, x), v) ambiguous -> schema W m x = Some (t, o) ->
  conf None t v = true /\ exists bs, encode t v = Ok bs /\ forall rest, decode t bs <> Ok (v, rest).
Proof. intro Cdc. exact ambiguous_lost. Qed.
Print Assumptions C24_ambiguous_types_lose_values_refuted.

Example C24_ex : ambiguous_types = [("rfc6402", "CMCStatusInfoV2"); ("rfc6402", "ChangeSubjectName");
  ("rfc3280", "DirectoryString"); ("rfc2251", "LDAPMessage"); ("rfc2251", "UnbindRequest")] /\
  check ["rfc2251"] "rfc2251" "UnbindRequest" (fun _ _ => true) = true.
Proof. split; [reflexivity|vm_compute; reflexivity]. Qed.

(** C25: decoding (a total function here) consumes at least one octet and leaves a suffix, for
    any type and any input, with open types or without; the recursion bounds used to define it
    never run out. *)
Theorem C25_decode_consumes_prefix : forall {Cdc : codec} O t s v rest, decode_with O t s = Ok (v, rest) -> exists p, s = p ++ rest /\ p <> [].
Proof. intro Cdc. exact decode_suffix. Qed.
Print Assumptions C25_decode_consumes_prefix.

Theorem C25_recursion_bounds_suffice : forall f k cs sl s,
  (List.length s <= f -> (forall accept ts, descend f accept ts s = descend (List.length s) accept ts s)
     /\ dec_list f k s = dec_list (List.length s) k s /\ dec_set f cs sl s = dec_set (List.length s) cs sl s)%nat
  /\ (List.length cs <= f -> dec_seq f cs s = dec_seq (List.length cs) cs s)%nat.
Proof.
  intros f k cs sl s. repeat split; intros; auto using descend_fuel, dec_list_fuel, dec_set_fuel, dec_seq_fuel, Nat.le_refl.
Qed.
Print Assumptions C25_recursion_bounds_suffice.

Example C25_ex : forall {Cdc : codec}, check ["rfc5280"] "rfc5280" "Certificate" (fun _ t =>
  match decode t [48; 3; 48; 1]%N, decode t [48; 0; 7]%N, decode t [] with Err, Err, Err => true | _, _, _ => false end) = true.
Proof. intro Cdc. vm_compute. reflexivity. Qed.

(** C27: setting a component to its DEFAULT, or leaving it out, gives the same octets... *)
Theorem C27_defaults_not_encoded : forall h W m x t o s ms fs vs ws, session h = OK W -> schema W m x = Some (t, o) ->
  inside (TSeq s ms fs) t -> slots3 default_omitted fs vs ws ->
  encode (TSeq s ms fs) (VSeq vs) = encode (TSeq s ms fs) (VSeq ws).
Proof. exact (type_default_omitted (Cdc := false)). Qed.
Print Assumptions C27_defaults_not_encoded.

(** ... from which the decoder restores the default. *)
Theorem C27_defaults_restored : forall {Cdc : codec} h W m x t o s ms fs vs ws bs rest, session h = OK W -> schema W m x = Some (t, o) ->
  ~ In (m, x) ambiguous_types -> inside (TSeq s ms fs) t -> slots3 default_omitted fs vs ws ->
  conf None (TSeq s ms fs) (VSeq vs) = true -> encode (TSeq s ms fs) (VSeq ws) = Ok bs ->
  decode (TSeq s ms fs) (bs ++ rest) = Ok (VSeq vs, rest).
Proof. intro Cdc. exact type_default_restored. Qed.
Print Assumptions C27_defaults_restored.

(** rfc5280.BasicConstraints: cA BOOLEAN DEFAULT FALSE, pathLenConstraint OPTIONAL *)
Example C27_ex : forall {Cdc : codec}, check ["rfc5280"] "rfc5280" "BasicConstraints" (fun _ t =>
  res_eqb (encode t (VSeq [Some (VBool false); None])) (Ok [48; 0]%N)
  && res_eqb (encode t (VSeq [None; None])) (Ok [48; 0]%N)
  && res_eqb (encode t (VSeq [Some (VBool true); None])) (Ok [48; 3; 1; 1; 255]%N)
  && yields (decode t [48; 0]%N) (VSeq [Some (VBool false); None]) []) = true.
Proof. intro Cdc. vm_compute. reflexivity. Qed.

(** C28: what the decoder returns for a SEQUENCE or SET has all mandatory components (and a
    value for each component with a default)... *)
Theorem C28_decoded_has_mandatory : forall {Cdc : codec} O isset m fs s v rest, decode_with O (TSeq isset m fs) s = Ok (v, rest) ->
  exists vs, v = VSeq vs /\ Forall2 (fun f o => match fpres f with
                                                | Req => o <> None
                                                | Opt => True
                                                | Def => fdef f = None \/ o <> None
                                                end) fs vs.
Proof. intro Cdc. exact decode_complete. Qed.
Print Assumptions C28_decoded_has_mandatory.

(** ... the encoder refuses a value without one of them, unless the type of the component is
    NULL, an unconstrained SEQUENCE OF/SET OF, or a SEQUENCE/SET made of such, or the schema
    object carries a value of its own ([prefilled], like that of rfc1157.Version)... *)
Theorem C28_missing_mandatory_refused : forall isset m fs vs bs, encode (TSeq isset m fs) (VSeq vs) = Ok bs ->
  forall i f, nth_error fs i = Some f -> nth_error vs i = Some None -> fpres f = Req -> ~ prefilled f ->
  unassigned_ok (ftype f).
Proof. exact missing_mandatory. Qed.
Print Assumptions C28_missing_mandatory_refused.

(** ... in which cases it makes one up: an rfc5280.Attribute with no values set. *)
Theorem C28_missing_mandatory_accepted_refuted : exists W t o, session ["rfc5280"] = OK W /\
  schema W "rfc5280" "Attribute" = Some (t, o) /\
  encode t (VSeq [Some (VOid [2; 5; 4; 3]%N); None]) = Ok [48; 7; 6; 3; 85; 4; 3; 49; 0]%N.
Proof.
  destruct (check_sound ["rfc5280"] "rfc5280" "Attribute"
    (fun _ t => res_eqb (encode t (VSeq [Some (VOid [2; 5; 4; 3]%N); None])) (Ok [48; 7; 6; 3; 85; 4; 3; 49; 0]%N))) as (W & t & o & E & HS & K).
  - vm_cast_no_check (eq_refl true).
  - exists W, t, o. split; [exact E|]. split; [exact HS|exact (res_eqb_ok _ _ K)].
Qed.
Print Assumptions C28_missing_mandatory_accepted_refuted.

Example C28_ex : forall {Cdc : codec}, check ["rfc5280"] "rfc5280" "AlgorithmIdentifier" (fun _ t =>
  match encode t (VSeq [None; None]), decode t [48; 0]%N with Err, Err => true | _, _ => false end) = true.
Proof. intro Cdc. vm_compute. reflexivity. Qed.

(** C29: in every CHOICE of every type but rfc6402.CMCStatusInfoV2, encodings of different
    alternatives start with different tags. *)
Theorem C29_choice_tags_distinct : forall h W m x t o, session h = OK W -> schema W m x = Some (t, o) -> ~ In (m, x) clashing ->
  forall mc alts, inside (TChoice mc alts) t ->
  forall i j f g a b, i <> j -> nth_error alts i = Some f -> nth_error alts j = Some g ->
  starts (ftype f) a -> starts (ftype g) b -> tcls a <> tcls b \/ tnum a <> tnum b.
Proof. exact (type_choices (Cdc := false)). Qed.
Print Assumptions C29_choice_tags_distinct.

Example C29_ex : clashing = [("rfc6402", "CMCStatusInfoV2")] /\
  check ["rfc5280"] "rfc5280" "GeneralName" (fun _ t =>
    match t with TChoice _ alts => Nat.eqb (List.length (flat_map (fun f => outer (ftype f)) alts)) 9 | _ => false end) = true.
Proof. split; [reflexivity|vm_compute; reflexivity]. Qed.

(** C33: exported OIDs are valid, and valid OIDs round trip. *)
Theorem C33_oid_constants_valid : forall h W m x t a, session h = OK W -> schema W m x = Some (t, Some (VOid a)) -> valid_oid a = true.
Proof. exact (oid_valid (Cdc := false)). Qed.
Print Assumptions C33_oid_constants_valid.
Theorem C33_oids_round_trip : forall a, valid_oid a = true -> exists s, enc_oid a = Some s /\ dec_oid s = Some a.
Proof. intros a H. destruct (enc_oid_some a H) as [s E]. exists s. split; [exact E|exact (dec_enc_oid a s E)]. Qed.
Print Assumptions C33_oids_round_trip.

Example C33_ex : check ["rfc5280"] "rfc5280" "id_pkix" (fun W _ =>
  match schema W "rfc5280" "id_pkix" with Some (_, Some (VOid [1; 3; 6; 1; 5; 5; 7]%N)) => true | _ => false end) = true /\
  enc_oid [2; 999; 3]%N = Some [136; 55; 3]%N.
Proof. split; vm_compute; reflexivity. Qed.

(** C37: with decodeOpenTypes, against the registries of any session.  [conf_open R t v] is
    [conf] with open components holding values of the registered type (and octets where the
    governing key is not registered), to any depth. *)
Theorem C37_open_types_round_trip : forall {Cdc : codec} h W m x t o, session h = OK W -> schema W m x = Some (t, o) -> ~ In (m, x) ambiguous_types ->
  forall v bs rest, conf_open (reg_of W) t v -> encode t v = Ok bs -> decode_open (reg_of W) t (bs ++ rest) = Ok (v, rest).
Proof. intro Cdc. exact type_open_round_trip. Qed.
Print Assumptions C37_open_types_round_trip.

(** The types registered are unambiguous (but for id-cmc-statusInfoV2). *)
Theorem C37_registered_types_unambiguous : forall {Cdc : codec} h W d k t, session h = OK W -> reg_of W d k = Some t -> k <> statusInfoV2 ->
  forall v bs rest, conf None t v = true -> encode t v = Ok bs -> decode t (bs ++ rest) = Ok (v, rest).
Proof. intro Cdc.
  intros h W d k t E G N v bs rest. exact (plain_round_trip t v bs rest (proj2 (registered_ok h W d k t E G) N)).
Qed.
Print Assumptions C37_registered_types_unambiguous.

(** How deep open types may nest is bounded by the input only. *)
Theorem C37_nesting_bound_immaterial : forall {Cdc : codec} h W m x t o s n, session h = OK W -> schema W m x = Some (t, o) ->
  (List.length s < n)%nat -> decode_with (Some (opener_of (reg_of W) n)) t s = decode_open (reg_of W) t s.
Proof. intro Cdc.
  intros h W m x t o s n E HS. apply decode_open_enough.
  - intros d k u G. exact (proj1 (registered_ok h W d k u E G)).
  - exact (type_open_plain h W m x t o E HS).
Qed.
Print Assumptions C37_nesting_bound_immaterial.

(** tests/test_rfc3560.py, OAEPSHA256TestCase: RSAES-OAEP parameters whose hash and mask
    generation functions are in turn open; without rfc4055 they stay octets. *)
Definition oaep_sha256 : bytes := [48;60;6;9;42;134;72;134;247;13;1;1;7;48;47;160;15;48;13;6;9;96;134;72;1;101;3;4;2;1;5;0;161;
  28;48;26;6;9;42;134;72;134;247;13;1;1;8;48;13;6;9;96;134;72;1;101;3;4;2;1;5;0]%N.
Example C37_ex :forall {Cdc : codec}, 
  check ["rfc3560"] "rfc5280" "AlgorithmIdentifier" (fun W t =>
    match decode_open (reg_of W) t oaep_sha256 with
    | Ok (VSeq [_; Some (VTyped p (Some (VSeq (Some (VSeq [_; Some (VTyped _ (Some VNull))]) :: _)))) ] as v, []) =>
        conf (Some (opened_of (reg_of W) 5)) t v && res_eqb (encode t v) (Ok oaep_sha256)
    | _ => false
    end) = true /\
  check ["rfc5280"] "rfc5280" "AlgorithmIdentifier" (fun W t =>
    match decode_open (reg_of W) t oaep_sha256 with
    | Ok (VSeq [_; Some (VOcts p)], []) => Nat.eqb (List.length p) 49
    | _ => false
    end) = true.
Proof. intro Cdc. split; vm_compute; reflexivity. Qed.

(** The octets are not always those that were decoded: an rfc2459.Extension holding a
    SubjectKeyIdentifier (an OCTET STRING in an open OCTET STRING) loses the inner header. *)
Theorem C37_subject_key_identifier_refuted : forall {Cdc : codec}, exists W t o v, session ["rfc2459"] = OK W /\
  schema W "rfc2459" "Extension" = Some (t, o) /\
  decode_open (reg_of W) t [48; 11; 6; 3; 85; 29; 14; 4; 4; 4; 2; 1; 2]%N = Ok (v, []) /\
  encode t v = Ok [48; 9; 6; 3; 85; 29; 14; 4; 2; 1; 2]%N.
Proof. intro Cdc.
  destruct (check_sound ["rfc2459"] "rfc2459" "Extension" (fun W t =>
    match decode_open (reg_of W) t [48; 11; 6; 3; 85; 29; 14; 4; 4; 4; 2; 1; 2]%N with
    | Ok (v, []) => res_eqb (encode t v) (Ok [48; 9; 6; 3; 85; 29; 14; 4; 2; 1; 2]%N)
    | _ => false
    end)) as (W & t & o & E & HS & K).
  - vm_cast_no_check (eq_refl true).
  - destruct (decode_open (reg_of W) t _) as [[v [|]]| | |] eqn:D; [|discriminate K..].
    exists W, t, o, v. split; [exact E|]. split; [exact HS|]. split; [exact D|exact (res_eqb_ok _ _ K)].
Qed.
Print Assumptions C37_subject_key_identifier_refuted.

(** C53: decoding with decodeOpenTypes accepts only what decoding without it accepts, and
    returns the same value with its open components replaced by the decodings of their octets.
    [opens_to R t v w] and [blocked R t v] are spelt out in Asn1/Opening.v. *)
Theorem C53_opening : forall {Cdc : codec} h W m x t o, session h = OK W -> schema W m x = Some (t, o) ->
  forall s v rest, decode_open (reg_of W) t s = Ok (v, rest) -> exists v0, decode t s = Ok (v0, rest) /\ opens_to (reg_of W) t v0 v.
Proof. intro Cdc.
  intros h W m x t o E HS s v rest. apply open_is_plain.
  - intros d k u G. exact (proj1 (registered_ok h W d k u E G)).
  - exact (type_open_plain h W m x t o E HS).
Qed.
Print Assumptions C53_opening.
(** Conversely, what decoding without it accepts is accepted with it unless the octets of an
    open component do not decode to a value of the registered type (or, in turn, those of one
    inside that), or the governing component is missing. *)
Theorem C53_opening_total : forall {Cdc : codec} h W m x t o, session h = OK W -> schema W m x = Some (t, o) ->
  forall s v0 rest, decode t s = Ok (v0, rest) -> (exists v, decode_open (reg_of W) t s = Ok (v, rest)) \/ blocked (reg_of W) t v0.
Proof. intro Cdc.
  intros h W m x t o E HS s v0 rest. apply plain_opens.
  - intros d k u G. exact (proj1 (registered_ok h W d k u E G)).
  - exact (type_open_plain h W m x t o E HS).
Qed.
Print Assumptions C53_opening_total.
(** Opening may lose something: what follows the value in the octets of an open component
    (basicConstraints, here followed by a NULL). *)
Definition extension (more : bytes) : bytes := [48; N.of_nat (9 + List.length more); 6; 3; 85; 29; 19; 4; N.of_nat (2 + List.length more); 48; 0]%N ++ more.
Theorem C53_trailing_octets_refuted : forall {Cdc : codec}, exists W t o v v1 v2, session ["rfc2459"] = OK W /\ schema W "rfc2459" "Extension" = Some (t, o) /\
  decode_open (reg_of W) t (extension []) = Ok (v, []) /\ decode_open (reg_of W) t (extension [5; 0]%N) = Ok (v, []) /\
  decode t (extension []) = Ok (v1, []) /\ decode t (extension [5; 0]%N) = Ok (v2, []) /\ v1 <> v2.
Proof. intro Cdc.
  destruct (check_sound ["rfc2459"] "rfc2459" "Extension" (fun W t =>
    match decode_open (reg_of W) t (extension []), decode_open (reg_of W) t (extension [5; 0]%N),
          decode t (extension []), decode t (extension [5; 0]%N) with
    | Ok (v, []), Ok (v', []), Ok (v1, []), Ok (v2, []) => aval_eqb v v' && negb (aval_eqb v1 v2)
    | _, _, _, _ => false
    end)) as (W & t & o & E & HS & K); [vm_cast_no_check (eq_refl true)|].
  destruct (decode_open (reg_of W) t (extension [])) as [[v [|]]| | |] eqn:D; try discriminate K.
  destruct (decode_open (reg_of W) t (extension [5; 0]%N)) as [[v' [|]]| | |] eqn:D'; try discriminate K.
  destruct (decode t (extension [])) as [[v1 [|]]| | |] eqn:D1; try discriminate K.
  destruct (decode t (extension [5; 0]%N)) as [[v2 [|]]| | |] eqn:D2; try discriminate K.
  apply andb_true_iff in K. destruct K as [K1 K2]. apply aval_eqb_sound in K1. subst v'. exists W, t, o, v, v1, v2.
  split; [exact E|]. split; [exact HS|]. split; [exact D|]. split; [exact D'|]. split; [exact D1|]. split; [exact D2|].
  intros ->. rewrite (proj2 EqbFacts.eqb_refl) in K2. discriminate K2.
Qed.
Print Assumptions C53_trailing_octets_refuted.
(** countryName = "SE" is opened; the octets of a countryName that is an INTEGER are not. *)
Example C53_ex : forall {Cdc : codec}, check ["rfc5280"] "rfc5280" "AttributeTypeAndValue" (fun W t =>
    match decode_open (reg_of W) t [48; 9; 6; 3; 85; 4; 6; 19; 2; 83; 69]%N, decode t [48; 9; 6; 3; 85; 4; 6; 19; 2; 83; 69]%N,
          decode_open (reg_of W) t [48; 8; 6; 3; 85; 4; 6; 2; 1; 5]%N, decode t [48; 8; 6; 3; 85; 4; 6; 2; 1; 5]%N with
    | Ok (VSeq [_; Some (VTyped _ (Some (VText [83; 69]%N)))], []), Ok (VSeq [_; Some (VOcts [19; 2; 83; 69]%N)], []),
      Err, Ok (VSeq [_; Some (VOcts [2; 1; 5]%N)], []) => true
    | _, _, _, _ => false
    end) = true.
Proof. intro Cdc. vm_compute. reflexivity. Qed.

(** C55: with decodeOpenTypes, what is accepted depends on what has been imported, but only in
    one way: whatever is accepted after importing more modules is accepted after importing
    fewer, with the same rest, and the two values are openings of one value.  [listed_agree]:
    the 11 keys of C18 that denote two types denote the same in both. *)
Theorem C55_more_imports_accept_less : forall {Cdc : codec} h h2 W W2 m x t o, session h = OK W -> session h2 = OK W2 ->
  (forall n, loaded W n <> None -> loaded W2 n <> None) ->
  (forall d k u, In (d, k) (order_dependent ++ overridden) -> reg_of W d k = Some u -> reg_of W2 d k = Some u) ->
  schema W m x = Some (t, o) ->
  forall s v2 rest, decode_open (reg_of W2) t s = Ok (v2, rest) ->
  exists v0 v1, decode t s = Ok (v0, rest) /\ decode_open (reg_of W) t s = Ok (v1, rest) /\
    opens_to (reg_of W) t v0 v1 /\ opens_to (reg_of W2) t v0 v2.
Proof. intro Cdc. exact more_imports. Qed.
Print Assumptions C55_more_imports_accept_less.
(** The same modules imported in another order give the same result (if the 8 keys for which
    the order matters denote the same). *)
Theorem C55_order_of_imports : forall {Cdc : codec} h h2 W W2 m x t o, session h = OK W -> session h2 = OK W2 -> (forall n, In n h <-> In n h2) ->
  (forall d k, In (d, k) order_dependent -> reg_of W d k = reg_of W2 d k) -> schema W m x = Some (t, o) ->
  forall s, decode_open (reg_of W) t s = decode_open (reg_of W2) t s.
Proof. intro Cdc. exact same_imports. Qed.
Print Assumptions C55_order_of_imports.
(** Importing one more module does make accepted octets rejected: a clearanceSponsor that is an
    INTEGER, before and after importing rfc5917, whose types are not used. *)
Definition sponsor (v : bytes) : bytes := [48; N.of_nat (11 + List.length v); 6; 9; 96; 134; 72; 1; 101; 2; 1; 5; 68]%N ++ v.
Theorem C55_imports_reject_refuted : forall {Cdc : codec}, exists W W2 t o v, session ["rfc5280"] = OK W /\ session ["rfc5280"; "rfc5917"] = OK W2 /\
  schema W "rfc5280" "AttributeTypeAndValue" = Some (t, o) /\ schema W2 "rfc5280" "AttributeTypeAndValue" = Some (t, o) /\
  decode_open (reg_of W) t (sponsor [2; 1; 5]%N) = Ok (v, []) /\ decode_open (reg_of W2) t (sponsor [2; 1; 5]%N) = Err.
Proof. intro Cdc.
  destruct (check_sound ["rfc5280"] "rfc5280" "AttributeTypeAndValue" (fun W t =>
    match decode_open (reg_of W) t (sponsor [2; 1; 5]%N) with Ok (_, []) => true | _ => false end)) as (W & t & o & E & HS & K); [vm_cast_no_check (eq_refl true)|].
  destruct (check_sound ["rfc5280"; "rfc5917"] "rfc5280" "AttributeTypeAndValue" (fun W t =>
    match decode_open (reg_of W) t (sponsor [2; 1; 5]%N) with Err => true | _ => false end)) as (W2 & t2 & o2 & E2 & HS2 & K2); [vm_cast_no_check (eq_refl true)|].
  pose proof (schema_same _ _ _ _ "rfc5280" "AttributeTypeAndValue" E E2 (schema_loaded _ _ _ _ HS) (schema_loaded _ _ _ _ HS2)) as Q.
  assert (t2 = t) by congruence. assert (o2 = o) by congruence. subst t2 o2.
  destruct (decode_open (reg_of W) t (sponsor [2; 1; 5]%N)) as [[v [|]]| | |] eqn:D; try discriminate K.
  destruct (decode_open (reg_of W2) t (sponsor [2; 1; 5]%N)) as [[? ?]| | |] eqn:D2; try discriminate K2.
  exists W, W2, t, o, v. split; [exact E|]. split; [exact E2|]. split; [exact HS|]. split; [exact HS2|]. split; [exact D|exact D2].
Qed.
Print Assumptions C55_imports_reject_refuted.
(** A clearanceSponsor that is a UTF8String is opened after importing rfc5917 and kept as
    octets before. *)
Example C55_ex :forall {Cdc : codec}, 
  check ["rfc5280"] "rfc5280" "AttributeTypeAndValue" (fun W t =>
    match decode_open (reg_of W) t (sponsor [12; 1; 65]%N) with Ok (VSeq [_; Some (VOcts [12; 1; 65]%N)], []) => true | _ => false end) = true /\
  check ["rfc5280"; "rfc5917"] "rfc5280" "AttributeTypeAndValue" (fun W t =>
    match decode_open (reg_of W) t (sponsor [12; 1; 65]%N) with Ok (VSeq [_; Some (VTyped _ (Some (VAlt _ (VText [65]%N))))], []) => true | _ => false end) = true /\
  match session ["rfc5280"], session ["rfc5280"; "rfc5917"] with
  | OK W, OK W2 => forallb (fun q : did * key => match reg_of W (fst q) (snd q), reg_of W2 (fst q) (snd q) with
      | Some a, Some b => asn1_eqb a b | None, None => true | _, _ => false end) (order_dependent ++ overridden)
  | _, _ => false
  end = true.
Proof. intro Cdc. vm_compute. repeat split. Qed.

(** C39: names and numbers of named values are one-to-one. *)
Theorem C39_named_values_distinct : forall h W m x t o, session h = OK W -> schema W m x = Some (t, o) ->
  forall u, inside u t -> NoDup (map fst (nvals (meta_of u))) /\ NoDup (map snd (nvals (meta_of u))).
Proof. exact (type_names_distinct (Cdc := false)). Qed.
Print Assumptions C39_named_values_distinct.

Example C39_ex : check ["rfc5280"] "rfc5280" "KeyUsage" (fun _ t => Nat.eqb (List.length (nvals (meta_of t))) 9) = true.
Proof. vm_compute. reflexivity. Qed.

(** C40: exported objects that carry a value encode, decode and encode to the same octets; but
    82 listed ones are templates that lack mandatory components. *)
Theorem C40_prebuilt_values_recode : forall {Cdc : codec} h W m x t v, session h = OK W -> schema W m x = Some (t, Some v) ->
  (forall a, v <> VOid a) -> ~ In (m, x) templates ->
  exists bs v', encode t v = Ok bs /\ decode t bs = Ok (v', []) /\ encode t v' = Ok bs.
Proof. intro Cdc. exact value_recodes. Qed.
Print Assumptions C40_prebuilt_values_recode.
Theorem C40_templates_do_not_encode_refuted : forall h W m x t o, session h = OK W -> In (m, x) templates ->
  schema W m x = Some (t, o) -> exists v, o = Some v /\ encode t v = Err.
Proof. exact (template_fails (Cdc := false)). Qed.
Print Assumptions C40_templates_do_not_encode_refuted.

Example C40_ex : List.length templates = 82%nat /\
  check ["rfc4055"] "rfc4055" "mgf1SHA256Identifier" (fun W _ =>
    match schema W "rfc4055" "mgf1SHA256Identifier" with
    | Some (t, Some v) => res_eqb (encode t v) (Ok [48;26;6;9;42;134;72;134;247;13;1;1;8;48;13;6;9;96;134;72;1;101;3;4;2;1;5;0]%N)
    | _ => false
    end) = true.
Proof. split; vm_compute; reflexivity. Qed.

(** C44: an open component is governed by a mandatory OID or INTEGER component of the same
    SEQUENCE, except in two types, which therefore can never be decoded with decodeOpenTypes. *)
Theorem C44_governors_exist : forall h W m x t o, session h = OK W -> schema W m x = Some (t, o) -> ~ In (m, x) misgoverned ->
  forall s ms fs, inside (TSeq s ms fs) t -> forall f n d, In f fs -> fopen f = Some (n, d) ->
  exists g k mg, In g fs /\ fname g = n /\ fpres g = Req /\ ftype g = TPrim k mg /\ (k = KOid \/ k = KInt).
Proof. exact (type_governors (Cdc := false)). Qed.
Print Assumptions C44_governors_exist.
Theorem C44_misgoverned_types_refuted : forall {Cdc : codec} h W m x t o R s v rest, session h = OK W -> In (m, x) misgoverned ->
  schema W m x = Some (t, o) -> decode_open R t s <> Ok (v, rest).
Proof. intro Cdc. intros h W m x t o R s v rest. exact (misgoverned_never h W m x t o _ s v rest). Qed.
Print Assumptions C44_misgoverned_types_refuted.

(** rfc2315.AttributeValueAssertion: the governor is called 'type', the component
    'attributeType'. *)
Example C44_ex : forall {Cdc : codec}, misgoverned = [("rfc7292", "BAG_TYPE"); ("rfc2315", "AttributeValueAssertion")] /\
  check ["rfc2315"] "rfc2315" "AttributeValueAssertion" (fun W t =>
    match decode t [48; 7; 6; 3; 85; 4; 3; 5; 0]%N, decode_open (reg_of W) t [48; 7; 6; 3; 85; 4; 3; 5; 0]%N with
    | Ok _, Err => true
    | _, _ => false
    end) = true.
Proof. intro Cdc. split; [reflexivity|vm_compute; reflexivity]. Qed.

(** C64: how deep decoded values nest ([levels], Asn1/Nesting.v: SEQUENCEs, SETs, their OFs and
    CHOICEs on the longest way down to a simple value).  Without decodeOpenTypes no input leads
    deeper than 21 levels. *)
Theorem C64_nesting : forall {Cdc : codec} h W m x t o, session h = OK W -> schema W m x = Some (t, o) ->
  forall s v rest, decode t s = Ok (v, rest) -> (levels v <= 21)%nat.
Proof. intro Cdc. exact type_levels. Qed.
Print Assumptions C64_nesting.
(** With it the length of the input is a bound, *)
Theorem C64_open_nesting : forall {Cdc : codec} h W m x t o, session h = OK W -> schema W m x = Some (t, o) ->
  forall s v rest, decode_open (reg_of W) t s = Ok (v, rest) -> (levels v <= 21 * (List.length s + 2))%nat.
Proof. intro Cdc. exact type_open_levels. Qed.
Print Assumptions C64_open_nesting.
(** and the input's sender the one who chooses: an rfc5652.ContentInfo with k other ones inside
    one another is accepted, as long as the lengths fit in [j] octets, at [17 + 2 * j] octets
    per level. *)
Theorem C64_open_nesting_constant_refuted : forall {Cdc : codec}, exists W t o, session ["rfc5652"] = OK W /\
  schema W "rfc5652" "ContentInfo" = Some (t, o) /\
  forall j k, (j <= 126)%N -> ((17 + 2 * j) * (N.of_nat k + 1) < 256 ^ j)%N ->
  exists s v, decode_open (reg_of W) t s = Ok (v, []) /\ levels v = S k /\ (N.of_nat (List.length s) <= (17 + 2 * j) * (N.of_nat k + 1))%N.
Proof. intro Cdc. destruct content_info_deep as (W & o & E & HS & D). exists W, content_info, o. split; [exact E|]. split; [exact HS|exact D]. Qed.
Print Assumptions C64_open_nesting_constant_refuted.

(** Lengths of three octets: more than the 1000 frames of Python's default recursion limit in
    23 kilobytes.  The OCSPRequest of C21 has 6 levels. *)
Example C64_ex : forall {Cdc : codec}, ((17 + 2 * 3) * (N.of_nat 1000 + 1) < 256 ^ 3)%N /\
  check ["rfc2560"] "rfc2560" "OCSPRequest" (fun _ t => match decode t ocsp_request with Ok (v, []) => Nat.eqb (levels v) 6 | _ => false end) = true.
Proof. intro Cdc. split; [reflexivity|vm_compute; reflexivity]. Qed.
