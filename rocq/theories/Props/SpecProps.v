(** Properties C30, C31, C32, C34, C35, C36, C41, C45, C48, C50, C58, C59, C61 and C62: the package against the RFCs.

    Vocabulary: [session h], [loaded], [schema], [encode], [decode], [conf] as in ImportProps
    and CodecProps.  [definition m x] is the ASN.1 type that the module's RFC gives the name x,
    transcribed from the RFC in the language of Spec/X680.v; [has s v]: [v] is a value of the
    ASN.1 type [s]; [shaped s v] and [bounded s v] are its two halves, the structure and the
    constraints; [DER s v] is its encoding by X.690 (Spec/X690.v); [huge] turns an encoding
    that needs 256^126 octets or more into pyasn1's exception; [regular false s v] excludes the
    values of C35_irregular_refuted; [allowed t v]: [v] satisfies the constraints of the schema
    object [t].  [registry m x]: the registered arcs of the identifier x (Spec/Oids.v). *)
From Coq Require Import List String ZArith NArith Bool Lia.
From Verif Require Import Py.Syntax Asn1.Types Py.Eval Gen.All Asn1.Bytes Asn1.Der Asn1.Wf
  Load.Import Load.Table Load.Computed Load.Schemas Load.Checked Load.CheckedFacts Load.Construct Load.Helper
  Spec.X680 Spec.X690 Spec.Agree Spec.Conform Spec.Leaves Spec.Reads Spec.Ber Spec.Complete Spec.Own Spec.Meant Spec.Catalogue Spec.Deviations Spec.Oids Spec.Checked Spec.Facts Spec.Registered
  Spec.Regular Spec.Rfc2251 Spec.Filters Spec.Instances.
Import ListNotations.
Open Scope string_scope.
Open Scope list_scope.

(** In the examples. *)
Definition during (h : list string) (f : world -> bool) : bool := match session h with OK W => f W | _ => false end.
Definition makes (r : r pyval) (v : aval) : bool := match r with OK (PInst _ (Some w)) => aval_eqb w v | _ => false end.
Definition raises (r : r pyval) (s : string) : bool := match r with Raise e => String.eqb e s | _ => false end.

(** ** C30 *)

(** m.x(z), for the nine integer types of RFC 1155 and RFC 1902, any integer z. *)
Theorem C30_snmp_integers : forall h W m x lo hi, session h = OK W -> loaded W m <> None -> In (m, x, (lo, hi)) snmp_ranges ->
  exists t, schema W m x = Some (t, None) /\ forall z, call_class W m x [Eval.PInt z] =
    if Z.leb lo z && Z.leb z hi then OK (PInst t (Some (VInt z))) else Raise "ValueConstraintError".
Proof. exact (snmp_constructs (Cdc := false)). Qed.
Print Assumptions C30_snmp_integers.

Example C30_ex : during ["rfc1902"; "rfc1155"] (fun W =>
  makes (call_class W "rfc1902" "Counter64" [Eval.PInt 18446744073709551615]) (VInt 18446744073709551615)
  && raises (call_class W "rfc1902" "Counter64" [Eval.PInt 18446744073709551616]) "ValueConstraintError"
  && makes (call_class W "rfc1902" "Integer32" [Eval.PInt (-2147483648)]) (VInt (-2147483648))
  && raises (call_class W "rfc1155" "TimeTicks" [Eval.PInt (-1)]) "ValueConstraintError") = true.
Proof. vm_compute. reflexivity. Qed.

(** ** C31 *)

(** m.x(a), for every class of a primitive type. *)
Theorem C31_constructors : forall h W m x s k mt, session h = OK W -> definition m x = Some s -> schema W m x = Some (TPrim k mt, None) ->
  is_class W m x -> ~ In (m, x) deviating -> ~ In (m, x) loose_types -> forall a v, literal a = Some v -> shaped s v = true ->
  call_class W m x [a] = if bounded s v then OK (PInst (TPrim k mt) (Some v)) else Raise "ValueConstraintError".
Proof. exact (type_constructs (Cdc := false)). Qed.
Print Assumptions C31_constructors.

(** For every type, at any depth of components. *)
Theorem C31_constraints : forall h W m x, session h = OK W -> forall s t, definition m x = Some s -> schema W m x = Some (t, None) ->
  ~ In (m, x) deviating -> ~ In (m, x) loose_types -> forall v, shaped s v = true -> allowed t v = bounded s v.
Proof. exact (type_bounded (Cdc := false)). Qed.
Print Assumptions C31_constraints.

(** The types left out do accept a value out of bounds, or refuse one within. *)
Theorem C31_other_bounds_refuted : forall h W m x v, session h = OK W -> loaded W m <> None -> In ((m, x), v) loose ->
  exists s t, definition m x = Some s /\ schema W m x = Some (t, None) /\ shaped s v = true /\ allowed t v <> bounded s v.
Proof. pose (Cdc := false : codec).
  intros h W m x v E L I. destruct (loose_shown h W m x v E L I) as (s & t & D & HS & K). exists s, t. repeat split; try assumption; apply (otherwise_so s t v K).
Qed.
Print Assumptions C31_other_bounds_refuted.

Example C31_ex : during ["rfc5280"] (fun W =>
  makes (call_class W "rfc5280" "X520SerialNumber" [Eval.PStr "0123456789012345678901234567890123456789012345678901234567890123"])
    (VText (chars "0123456789012345678901234567890123456789012345678901234567890123"))
  && raises (call_class W "rfc5280" "X520SerialNumber" [Eval.PStr "01234567890123456789012345678901234567890123456789012345678901234"]) "ValueConstraintError"
  && raises (call_class W "rfc5280" "X520SerialNumber" [Eval.PStr ""]) "ValueConstraintError") = true
  /\ match definition "rfc5280" "X520SerialNumber" with Some s => bounded s (VText []) | None => true end = false
  /\ mem2 deviating ("rfc5280", "X520SerialNumber") = false /\ mem2 loose_types ("rfc5280", "X520SerialNumber") = false.
Proof. split; [|split; [|split]]; vm_compute; reflexivity. Qed.
Example C31_refuted_ex : existsb (fun e => String.eqb (fst (fst e)) "rfc2459" && String.eqb (snd (fst e)) "CRLNumber" && aval_eqb (snd e) (VInt 0)) loose = true.
Proof. vm_compute. reflexivity. Qed.

(** ** C32 *)

(** Every function the modules define, called with any identifiers and numbers. *)
Theorem C32_helpers_flatten : forall h W m x, session h = OK W -> is_function W m x -> forall ps,
  call_function W m x (map argument ps) =
  if forallb natural ps then OK (PInst plain_oid (Some (VOid (flat_map pieces ps)))) else Raise "Malformed Object ID".
Proof. exact (function_flattens (Cdc := false)). Qed.
Print Assumptions C32_helpers_flatten.
(** All copies agree. *)
Theorem C32_helpers_agree : forall h W m x m' x', session h = OK W -> is_function W m x -> is_function W m' x' -> forall ps,
  call_function W m x (map argument ps) = call_function W m' x' (map argument ps).
Proof. pose (Cdc := false : codec).
  intros h W m x m' x' E F F' ps. rewrite (function_flattens h W m x E F), (function_flattens h W m' x' E F'). reflexivity.
Qed.
Print Assumptions C32_helpers_agree.

Example C32_ex : during ["rfc5280"; "rfc4210"] (fun W =>
  let ps := map argument [Arcs (mkM [] (CInter []) [] (CInter [])) [1; 3; 6]%N; Arc 1; Arc 5] in
  makes (call_function W "rfc5280" "_buildOid" ps) (VOid [1; 3; 6; 1; 5]%N)
  && raises (call_function W "rfc5280" "_buildOid" [Eval.PInt 1; Eval.PInt (-3)]) "Malformed Object ID"
  && match loaded W "rfc5280" with Some R => match lookup (m_ns R) "_buildOid" with Some (PFun _ _ _ _) => true | _ => false end | None => false end) = true.
Proof. vm_compute. reflexivity. Qed.

(** ** C34 *)

Theorem C34_identifiers : forall h W m x t a, session h = OK W -> schema W m x = Some (t, Some (VOid a)) ->
  ~ In (m, x) wrong_oids -> ~ In x unknown_oids -> registry m x = Some a.
Proof. exact (oid_right (Cdc := false)). Qed.
Print Assumptions C34_identifiers.
(** The constants left out have another value. *)
Theorem C34_wrong_identifiers_refuted : forall h W m x, session h = OK W -> loaded W m <> None -> In (m, x) wrong_oids ->
  exists t a b, schema W m x = Some (t, Some (VOid a)) /\ registry m x = Some b /\ a <> b.
Proof. exact (wrong_oid (Cdc := false)). Qed.
Print Assumptions C34_wrong_identifiers_refuted.

Example C34_ex : during ["rfc5280"; "rfc6402"] (fun W =>
  match schema W "rfc5280" "id_ce_keyUsage" with Some (_, Some (VOid a)) => list_eqb N.eqb a [2; 5; 29; 15]%N | _ => false end
  && archive_is_ra W) = true
  /\ registry "rfc5280" "id_ce_keyUsage" = Some [2; 5; 29; 15]%N
  /\ registry "rfc6402" "id_kp_cmcRA" = Some [1; 3; 6; 1; 5; 5; 7; 3; 28]%N
  /\ registry "rfc6402" "id_kp_cmcArchive" = Some [1; 3; 6; 1; 5; 5; 7; 3; 29]%N.
Proof. split; [vm_compute; reflexivity|]. split; [vm_compute; reflexivity|]. split; vm_compute; reflexivity. Qed.

(** ** C35 *)

(** Every exported type has a definition, but for 27 auxiliary ones; every definition of a
    catalogued module is implemented. *)
Theorem C35_types_defined : forall h W m x, session h = OK W -> forall t, schema W m x = Some (t, None) ->
  definition m x <> None \/ In (m, x) homemade.
Proof. exact (type_defined (Cdc := false)). Qed.
Print Assumptions C35_types_defined.
Theorem C35_definitions_implemented : forall h W m x, session h = OK W -> forall s, definition m x = Some s -> loaded W m <> None ->
  exists t, schema W m x = Some (t, None).
Proof. exact (type_implemented (Cdc := false)). Qed.
Print Assumptions C35_definitions_implemented.

(** The encoding is the one of X.690 and the RFC. *)
Theorem C35_wire_conformance : forall h W m x, session h = OK W -> forall s t, definition m x = Some s -> schema W m x = Some (t, None) ->
  ~ In (m, x) deviating -> forall v, has s v = true -> regular false s v = true -> encode t v = huge (DER s v).
Proof. exact (type_encodes_der (Cdc := false)). Qed.
Print Assumptions C35_wire_conformance.
(** For types without INTEGER, ENUMERATED, named bits, GeneralizedTime and OPTIONAL components
    that may be empty, all values are regular. *)
Theorem C35_wire_conformance_tame : forall h W m x, session h = OK W -> forall s t, definition m x = Some s -> schema W m x = Some (t, None) ->
  ~ In (m, x) deviating -> tame false s = true -> forall v, has s v = true -> encode t v = huge (DER s v).
Proof. pose (Cdc := false : codec).
  intros h W m x E s t D HS N T v H. exact (type_encodes_der h W m x E s t D HS N v H (tame_regular s false v T H)).
Qed.
Print Assumptions C35_wire_conformance_tame.
(** The values left out: four that are encoded otherwise. *)
Theorem C35_irregular_refuted : forall h W m x v due got, session h = OK W -> loaded W m <> None -> In (m, x, (v, due, got)) irregular ->
  exists s t, definition m x = Some s /\ schema W m x = Some (t, None) /\ has s v = true /\ regular false s v = false /\
    DER s v = Some due /\ encode t v = Ok got /\ due <> got.
Proof. exact (irregular_so (Cdc := false)). Qed.
Print Assumptions C35_irregular_refuted.

(** tests/test_rfc6960.py, OCSPRequestTestCase *)
Definition ocsp_request : bytes := [48;106;48;104;48;65;48;63;48;61;48;9;6;5;43;14;3;2;26;5;0;4;20;183;102;179;21;244;46;67;
  146;141;55;104;125;119;112;70;94;166;152;55;194;4;20;146;164;117;44;164;158;190;129;68;235;121;252;138;197;149;165;235;16;
  117;115;2;4;53;222;244;207;162;35;48;33;48;31;6;9;43;6;1;5;5;7;48;1;2;4;18;4;16;99;116;147;162;33;111;68;40;145;132;44;
  211;95;254;183;64]%N.
Example C35_ex : forall {Cdc : codec}, during ["rfc6960"] (fun W =>
  match definition "rfc6960" "OCSPRequest", schema W "rfc6960" "OCSPRequest" with
  | Some s, Some (t, None) =>
      match decode t ocsp_request with
      | Ok (v, []) => has s v && regular false s v && res_eqb (huge (DER s v)) (Ok ocsp_request) && res_eqb (encode t v) (Ok ocsp_request)
      | _ => false
      end
  | _, _ => false
  end) = true /\ mem2 deviating ("rfc6960", "OCSPRequest") = false.
Proof. intro Cdc. split; vm_compute; reflexivity. Qed.
Example C35_tame_ex : match definition "rfc5280" "Name" with Some s => tame false s | None => false end = true
  /\ match definition "rfc5652" "ContentInfo" with Some s => tame false s | None => false end = true
  /\ mem2 deviating ("rfc5280", "Name") = false.
Proof. repeat split; vm_compute; reflexivity. Qed.

(** ** C36 *)

(** Each type left out of C35 encodes some value otherwise, or cannot read its encoding (or not
    without loss), or encodes what is no value of the RFC's type. *)
Theorem C36_deviations_refuted : forall {Cdc : codec} h W m x v, session h = OK W -> loaded W m <> None -> In ((m, x), v) deviations ->
  exists s t, definition m x = Some s /\ schema W m x = Some (t, None) /\
    ((has s v = true /\ encode t v <> huge (DER s v) /\ encode t v <> Unm) \/
     (has s v = true /\ exists b, DER s v = Some b /\ (decode t b = Err \/ exists w, decode t b = Ok (w, []) /\ encode t w <> Ok b)) \/
     (has s v = false /\ exists b, encode t v = Ok b)).
Proof. intro Cdc.
  intros h W m x v E L I. destruct (deviation_shown h W m x v E L I) as (s & t & D & HS & K). exists s, t. repeat split; try assumption. exact (differs_so s t v K).
Qed.
Print Assumptions C36_deviations_refuted.
(** The complement: every other type. *)
Theorem C36_no_others : forall h W m x, session h = OK W -> forall s t, definition m x = Some s -> schema W m x = Some (t, None) ->
  In (m, x) (map fst deviations) \/ forall v, has s v = true -> regular false s v = true -> encode t v = huge (DER s v).
Proof. pose (Cdc := false : codec).
  intros h W m x E s t D HS. destruct (mem2 deviating (m, x)) eqn:Q; [left; exact (mem2_in _ _ Q)|right].
  exact (type_encodes_der h W m x E s t D HS (not_in2 _ _ _ Q)).
Qed.
Print Assumptions C36_no_others.

Example C36_ex : existsb (fun e => String.eqb (fst (fst e)) "rfc2251" && String.eqb (snd (fst e)) "UnbindRequest" && aval_eqb (snd e) VNull) deviations = true /\
  during ["rfc2251"] (fun W => match schema W "rfc2251" "UnbindRequest" with
    | Some (t, None) => res_eqb (encode t VNull) (Ok [98; 0]%N) | _ => false end) = true /\
  match definition "rfc2251" "UnbindRequest" with Some s => DER s VNull | None => None end = Some [66; 0]%N.
Proof. split; [|split]; vm_compute; reflexivity. Qed.

(** ** C41 *)

(** [filter_value n f] is the filter [f] of the RFC as a value of a type that nests and, or,
    not [n] levels deep: Filter3 0, Filter2 1, Filter 2. *)
Theorem C41_filters_within_depth : forall h W x n t, session h = OK W -> In (x, n) filter_types -> schema W "rfc2251" x = Some (t, None) ->
  forall f, (nested f <= n)%nat -> proper f = true -> encode t (filter_value n f) = huge (filter_der f).
Proof. exact (filter_encodes (Cdc := false)). Qed.
Print Assumptions C41_filters_within_depth.
(** The encoding of a deeper filter is not decoded, and is not the encoding of any value. *)
Theorem C41_deeper_filters_refuted : forall {Cdc : codec} h W x n t, session h = OK W -> In (x, n) filter_types -> schema W "rfc2251" x = Some (t, None) ->
  forall f b, (n < nested f)%nat -> filter_der f = Some b ->
  (forall rest r, decode t (b ++ rest) <> Ok r) /\ (forall v, conf None t v = true -> encode t v <> Ok b).
Proof. intro Cdc. exact filter_too_deep. Qed.
Print Assumptions C41_deeper_filters_refuted.

(** The attribute cn is present: within or within and, and one level deeper. *)
Definition present : ldap_filter := Test 4 (VOcts [99; 110]%N).
Example C41_ex : nested (And [Or [present]]) = 2%nat /\ proper (And [Or [present]]) = true
  /\ filter_der (And [Or [present]]) = Some [160; 6; 161; 4; 135; 2; 99; 110]%N
  /\ nested (And [Or [Not present]]) = 3%nat /\ filter_der (And [Or [Not present]]) = Some [160; 8; 161; 6; 162; 4; 135; 2; 99; 110]%N
  /\ check ["rfc2251"] "rfc2251" "Filter" (fun _ t =>
       res_eqb (encode t (filter_value 2 (And [Or [present]]))) (Ok [160; 6; 161; 4; 135; 2; 99; 110]%N)) = true.
Proof. repeat split; vm_compute; reflexivity. Qed.

(** ** C45 *)

(** [normal s v]: of the values with the same encoding, [v] is the one in the decoder's form
    (defaults filled in, elements of SET OF in the order of their encodings), and what stands
    for ANY is an encoding. *)
Theorem C45_decoder_reads : forall {Cdc : codec} h W m x, session h = OK W -> forall s t, definition m x = Some s -> schema W m x = Some (t, None) ->
  ~ In (m, x) deviating -> ~ In (m, x) tight -> ~ In (m, x) ambiguous_types -> forall v b rest, has s v = true ->
  regular false s v = true -> normal s v -> DER s v = Some b -> decode t (b ++ rest) = Ok (v, rest).
Proof. intro Cdc. exact type_reads_der_all. Qed.
Print Assumptions C45_decoder_reads.
(** [tight] lists types with constraints that the RFC does not make: each refuses a value. *)
Theorem C45_refuses_refuted : forall {Cdc : codec} h W m x v, session h = OK W -> loaded W m <> None -> In ((m, x), v) loose -> In (m, x) tight ->
  exists s t b, definition m x = Some s /\ schema W m x = Some (t, None) /\ has s v = true /\ DER s v = Some b /\ decode t b = Err.
Proof. intro Cdc. exact tight_refuses. Qed.
Print Assumptions C45_refuses_refuted.
Example C45_refuses_ex : forallb (fun n => existsb (fun e => String.eqb (fst n) (fst (fst e)) && String.eqb (snd n) (snd (fst e))) loose) tight = true
  /\ mem2 tight ("rfc2459", "GeneralName") = true /\ mem2 tight ("rfc5280", "GeneralName") = false.
Proof. repeat split; vm_compute; reflexivity. Qed.
(** With other constraints: the values that satisfy them. *)
Theorem C45_decoder_reads_allowed : forall {Cdc : codec} h W m x, session h = OK W -> forall s t, definition m x = Some s -> schema W m x = Some (t, None) ->
  ~ In (m, x) deviating -> ~ In (m, x) ambiguous_types -> forall v b rest, has s v = true ->
  regular false s v = true -> normal s v -> allowed t v = true -> DER s v = Some b -> decode t (b ++ rest) = Ok (v, rest).
Proof. intro Cdc. exact type_reads_der. Qed.
Print Assumptions C45_decoder_reads_allowed.

Example C45_ex : forall {Cdc : codec}, match definition "rfc5280" "Extension" with
  | Some s => let v := VSeq [Some (VOid [2; 5; 29; 15]%N); Some (VBool false); Some (VOcts [3; 2; 7; 128]%N)] in
      has s v = true /\ regular false s v = true /\ normal s v /\ DER s v = Some [48; 11; 6; 3; 85; 29; 15; 4; 4; 3; 2; 7; 128]%N
      /\ mem2 deviating ("rfc5280", "Extension") = false /\ mem2 tight ("rfc5280", "Extension") = false
      /\ check ["rfc5280"] "rfc5280" "Extension" (fun _ t => match decode t [48; 11; 6; 3; 85; 29; 15; 4; 4; 3; 2; 7; 128; 5; 0]%N with
           | Ok (w, [5; 0]%N) => aval_eqb w v | _ => false end) = true
  | None => False
  end.
Proof. intro Cdc. vm_compute. repeat split. Qed.

(** ** C48 *)

(** [exempted n = Some sk]: the difference between the deviating type [n] and its RFC lies in
    the components named in [sk].  [spares sk s v]: nowhere within [v] is a component
    [Without n] of [sk] present, and every component [Explicit n l] is present with a value
    that is not in [l]. *)
Theorem C48_confined_encodes : forall h W m x, session h = OK W -> forall s t, definition m x = Some s -> schema W m x = Some (t, None) ->
  forall sk, In (m, x) deviating -> exempted (m, x) = Some sk -> forall v, has s v = true -> spares sk s v = true ->
  regular false s v = true -> encode t v = huge (DER s v).
Proof. exact (confined_encodes (Cdc := false)). Qed.
Print Assumptions C48_confined_encodes.
Theorem C48_confined_reads : forall {Cdc : codec} h W m x, session h = OK W -> forall s t, definition m x = Some s -> schema W m x = Some (t, None) ->
  forall sk, In (m, x) deviating -> exempted (m, x) = Some sk -> ~ In (m, x) ambiguous_types -> ~ In (m, x) confined_tight ->
  forall v b rest, has s v = true -> spares sk s v = true -> regular false s v = true -> normal s v -> DER s v = Some b ->
  decode t (b ++ rest) = Ok (v, rest).
Proof. intro Cdc.
  intros h W m x E s t D HS sk DV EX A T v b rest H SP R N B.
  exact (confined_reads h W m x E s t D HS sk DV EX A v b rest H SP R N (confined_accepts h W m x E s t D HS sk DV EX T v H SP) B).
Qed.
Print Assumptions C48_confined_reads.
(** With other constraints as well: the values that satisfy them. *)
Theorem C48_confined_reads_allowed : forall {Cdc : codec} h W m x, session h = OK W -> forall s t, definition m x = Some s -> schema W m x = Some (t, None) ->
  forall sk, In (m, x) deviating -> exempted (m, x) = Some sk -> ~ In (m, x) ambiguous_types ->
  forall v b rest, has s v = true -> spares sk s v = true -> regular false s v = true -> normal s v -> allowed t v = true ->
  DER s v = Some b -> decode t (b ++ rest) = Ok (v, rest).
Proof. intro Cdc. exact confined_reads. Qed.
Print Assumptions C48_confined_reads_allowed.
(** The others are 21. *)
Theorem C48_confined_or_listed : forall n, In n deviating -> (exists sk, exempted n = Some sk) \/ In n unconfined.
Proof. exact confined_or_listed. Qed.
Print Assumptions C48_confined_or_listed.

(** Every confined type has such values. *)
Example C48_samples : forallb has_sample confined = true /\ List.length confined = 69%nat /\ List.length unconfined = 21%nat.
Proof. repeat split; vm_compute; reflexivity. Qed.
(** PKCS #8: the private key without attributes. *)
Example C48_ex : forall {Cdc : codec}, match definition "rfc5208" "PrivateKeyInfo", exempted ("rfc5208", "PrivateKeyInfo") with
  | Some s, Some sk => let v := VSeq [Some (VInt 0); Some (VSeq [Some (VOid [1; 2; 840; 113549; 1; 1; 1]%N); Some (VOcts [5; 0]%N)]); Some (VOcts [48; 0]%N); None] in
      let b := [48; 22; 2; 1; 0; 48; 13; 6; 9; 42; 134; 72; 134; 247; 13; 1; 1; 1; 5; 0; 4; 2; 48; 0]%N in
      sk = [Without "attributes"] /\ mem2 deviating ("rfc5208", "PrivateKeyInfo") = true /\ mem2 confined_tight ("rfc5208", "PrivateKeyInfo") = false
      /\ has s v = true /\ spares sk s v = true /\ regular false s v = true /\ normal s v /\ DER s v = Some b
      /\ check ["rfc5208"] "rfc5208" "PrivateKeyInfo" (fun _ t => match decode t (b ++ [5; 0])%N with
           | Ok (w, [5; 0]%N) => aval_eqb w v | _ => false end) = true
  | _, _ => False
  end.
Proof. intro Cdc. vm_compute. repeat split. exists Universal, 5%N, false, []. split; [discriminate|reflexivity]. Qed.

(** ** C50 *)

(** [taken_for bd new s None v e]: the octets [e] may be taken for an encoding of [v], by clause 8
    of X.690 and the liberties listed in Spec/Ber.v; [bd]: constraints observed, but for those
    of SEQUENCE OF, SET OF and CHOICE; [new]: a CHOICE may have further alternatives.  What the decoder accepts is that, followed by what it returns as the rest. *)
Theorem C50_decoder_sound : forall {Cdc : codec} h W m x, session h = OK W -> forall s t, definition m x = Some s -> schema W m x = Some (t, None) ->
  ~ In (m, x) deviating -> ~ In (m, x) ambiguous_types ->
  forall b v rest, forallb is_byte b = true -> decode t b = Ok (v, rest) -> exists e, b = e ++ rest /\ taken_for false true s None v e.
Proof. intro Cdc. exact type_sound. Qed.
Print Assumptions C50_decoder_sound.
Theorem C50_decoder_sound_bounds : forall {Cdc : codec} h W m x, session h = OK W -> forall s t, definition m x = Some s -> schema W m x = Some (t, None) ->
  ~ In (m, x) deviating -> ~ In (m, x) loose_types -> ~ In (m, x) ambiguous_types ->
  forall b v rest, forallb is_byte b = true -> decode t b = Ok (v, rest) -> exists e, b = e ++ rest /\ taken_for true true s None v e.
Proof. intro Cdc. exact type_sound_bounds. Qed.
Print Assumptions C50_decoder_sound_bounds.

(** For instance an Extension: the decoder accepts these octets, and they are an encoding. *)
Example C50_ex : forall {Cdc : codec}, check ["rfc5280"] "rfc5280" "Extension" (fun _ t => match decode t [48; 11; 6; 3; 85; 29; 15; 4; 4; 3; 2; 7; 128; 5; 0]%N with
    | Ok (w, [5; 0]%N) => aval_eqb w (VSeq [Some (VOid [2; 5; 29; 15]%N); Some (VBool false); Some (VOcts [3; 2; 7; 128]%N)]) | _ => false end) = true
  /\ mem2 deviating ("rfc5280", "Extension") = false /\ mem2 loose_types ("rfc5280", "Extension") = false
  /\ mem2 ambiguous_types ("rfc5280", "Extension") = false.
Proof. intro Cdc. repeat split; vm_compute; reflexivity. Qed.
Example C50_item : forall {Cdc : codec}, exists s, definition "rfc5280" "Extension" = Some s /\
  taken_for true true s None (VSeq [Some (VOid [2; 5; 29; 15]%N); Some (VBool false); Some (VOcts [3; 2; 7; 128]%N)])
    [48; 11; 6; 3; 85; 29; 15; 4; 4; 3; 2; 7; 128]%N.
Proof. intro Cdc.
  eexists. split; [vm_compute; reflexivity|]. cbn.
  assert (I : forall n m c, (n <= 30)%N -> (List.length c <= 127)%nat -> an_item (Universal, n) m c ([(if m then 32 else 0) + n; N.of_nat (List.length c)] ++ c)%N).
  { intros n m c Hn Hc. exists [(if m then 32 else 0) + n]%N, [N.of_nat (List.length c)]. repeat split; [exact (one_octet Universal m n Hn)|constructor; lia]. }
  eexists _, [6; 3; 85; 29; 15; 4; 4; 3; 2; 7; 128]%N. split; [reflexivity|]. split; [apply (I 16%N true); cbn; lia|].
  left. exists (VOid [2; 5; 29; 15]%N), [6; 3; 85; 29; 15]%N, [4; 4; 3; 2; 7; 128]%N. repeat split.
  { exists false, [85; 29; 15]%N. split; [apply (I 6%N false); cbn; lia|split; vm_compute; reflexivity]. }
  right. repeat split; [discriminate|]. left. exists (VOcts [3; 2; 7; 128]%N), [4; 4; 3; 2; 7; 128]%N, []. repeat split.
  exists false, [3; 2; 7; 128]%N. split; [apply (I 4%N false); cbn; lia|reflexivity].
Qed.
(** These octets are an encoding of no BOOLEAN if the decoder is the strict one; the other one
    takes them for TRUE. *)
Example C50_strict : forall bd new v, ~ taken_for (Cdc := false) bd new (APrim PBool) None v [1; 1; 1]%N.
Proof.
  intros bd new v (k & c & (i & l & I & L & E) & D).
  assert (F : exists b : bool, c = [if b then 255 else 0]%N).
  { destruct k, v; cbn in D; try contradiction; [destruct D as [_ ->]; exists b; reflexivity|]. destruct D as [->|[LX _]]; [exists b; reflexivity|discriminate LX]. }
  destruct F as (b & ->).
  destruct k; inversion I; subst i; try (cbn in E; discriminate E); inversion L as [|ds _ _ _ EL]; subst l; destruct b; cbn -[N.add] in E;
    try (vm_compute in E; discriminate E); destruct ds as [|d [|d' ds]]; discriminate E.
Qed.
Example C50_lax : forall bd new, taken_for (Cdc := true) bd new (APrim PBool) None (VBool true) [1; 1; 1]%N.
Proof.
  intros bd new. exists false, [1]%N. split; [|right; split; reflexivity]. exists [1]%N, [1]%N.
  repeat split; [exact (one_octet Universal false 1%N ltac:(lia))|constructor; lia].
Qed.

(** Octets accepted that are not the DER of a value of the type: (module, type, octets, value).  A number
    with a leading zero octet; a length in the long form; a tag in the long form; an INTEGER
    without contents; unused bits set; a DEFAULT that is there; octets
    left over inside an explicit tag; an ANY without its tag; a SET OF out of order; a letter
    that PrintableString lacks; a string in segments.  Depending on the codec: a constructed
    BOOLEAN; or TRUE as 1, and an OCTET STRING in segments. *)
Definition not_der : list (string * string * list N * aval) :=
  [ ("rfc5280", "CertificateSerialNumber", [2; 2; 0; 5]%N, VInt 5);
    ("rfc5280", "CertificateSerialNumber", [2; 129; 1; 5]%N, VInt 5);
    ("rfc5280", "CertificateSerialNumber", [31; 2; 1; 5]%N, VInt 5);
    ("rfc5280", "CertificateSerialNumber", [2; 0]%N, VInt 0);
    ("rfc5280", "KeyUsage", [3; 2; 7; 255]%N, VBits [true]);
    ("rfc5280", "BasicConstraints", [48; 3; 1; 1; 0]%N, VSeq [Some (VBool false); None]);
    ("rfc5280", "GeneralName", [164; 4; 48; 0; 5; 0]%N, VAlt 4 (VAlt 0 (VList [])));
    ("rfc5280", "AnotherName", [48; 5; 6; 1; 42; 5; 0]%N, VSeq [Some (VOid [1; 2]%N); Some (VOcts [5; 0]%N)]);
    ("rfc5280", "DirectoryString", [19; 1; 64]%N, VAlt 1 (VText [64]%N));
    ("rfc5280", "DirectoryString", [51; 6; 19; 1; 65; 19; 1; 66]%N, VAlt 1 (VText [65; 66]%N));
    ("rfc5280", "RelativeDistinguishedName", [49; 14; 48; 5; 6; 1; 42; 5; 0; 48; 5; 6; 1; 41; 5; 0]%N,
      VList [VSeq [Some (VOid [1; 2]%N); Some (VOcts [5; 0]%N)]; VSeq [Some (VOid [1; 1]%N); Some (VOcts [5; 0]%N)]]) ].
Definition not_der_by (c : codec) : list (string * string * list N * aval) :=
  if c then [("rfc5280", "BasicConstraints", [48; 3; 1; 1; 1]%N, VSeq [Some (VBool true); None]);
             ("rfc5280", "KeyIdentifier", [36; 6; 4; 1; 65; 4; 1; 66]%N, VOcts [65; 66]%N)]
  else [("rfc5280", "BasicConstraints", [48; 3; 33; 1; 255]%N, VSeq [Some (VBool true); None])].
Definition accepted_not_der {Cdc : codec} (e : string * string * list N * aval) : bool :=
  match e with
  | (m, x, b, v) => match definition m x with
    | Some s => check [m] m x (fun _ t => match decode t b with Ok (w, []) => aval_eqb w v | _ => false end)
                && match DER s v with Some b' => negb (has s v && res_eqb (Ok b') (Ok b)) | None => false end
    | None => false end
  end.
Theorem C50_only_der_refuted : forall {Cdc : codec}, forallb accepted_not_der not_der = true /\ forallb accepted_not_der (not_der_by Cdc) = true.
Proof. intro Cdc. split; [vm_compute; reflexivity|destruct Cdc; vm_compute; reflexivity]. Qed.
Print Assumptions C50_only_der_refuted.

(** ** C58 *)

(** Whatever may be taken for an encoding of [v] is decoded, and gives [v]. *)
Theorem C58_decoder_complete : forall {Cdc : codec} h W m x, session h = OK W -> forall s t, definition m x = Some s -> schema W m x = Some (t, None) ->
  ~ In (m, x) deviating -> ~ In (m, x) tight -> ~ In (m, x) ambiguous_types ->
  forall e v rest, forallb is_byte e = true -> taken_for true false s None v e -> decode t (e ++ rest) = Ok (v, rest).
Proof. intro Cdc. exact type_complete. Qed.
Print Assumptions C58_decoder_complete.
(** The decoder accepts exactly that; [widened]: types with an alternative that the RFC lacks. *)
Theorem C58_decoder_exact : forall {Cdc : codec} h W m x, session h = OK W -> forall s t, definition m x = Some s -> schema W m x = Some (t, None) ->
  ~ In (m, x) deviating -> ~ In (m, x) loose_types -> ~ In (m, x) widened -> ~ In (m, x) ambiguous_types ->
  forall b v rest, forallb is_byte b = true ->
  (decode t b = Ok (v, rest) <-> exists e, b = e ++ rest /\ taken_for true false s None v e).
Proof. intro Cdc. exact type_exact. Qed.
Print Assumptions C58_decoder_exact.
(** So the definitions are unambiguous, even with those liberties: octets begin with an
    encoding of one value at most. *)
Theorem C58_one_value : forall {Cdc : codec} h W m x, session h = OK W -> forall s t, definition m x = Some s -> schema W m x = Some (t, None) ->
  ~ In (m, x) deviating -> ~ In (m, x) tight -> ~ In (m, x) ambiguous_types ->
  forall e rest v e' rest' v', forallb is_byte e = true -> forallb is_byte e' = true -> e ++ rest = e' ++ rest' ->
  taken_for true false s None v e -> taken_for true false s None v' e' -> v = v' /\ e = e'.
Proof. intro Cdc. exact type_one_value. Qed.
Print Assumptions C58_one_value.
(** And what is decoded is a value of the type: of the right kind at every level, with every
    component that is neither OPTIONAL nor DEFAULT, and an alternative of every CHOICE. *)
Theorem C58_decoded_whole : forall {Cdc : codec} h W m x, session h = OK W -> forall s t, definition m x = Some s -> schema W m x = Some (t, None) ->
  ~ In (m, x) deviating -> ~ In (m, x) loose_types -> ~ In (m, x) widened -> ~ In (m, x) ambiguous_types ->
  forall b v rest, forallb is_byte b = true -> decode t b = Ok (v, rest) -> whole s v = true.
Proof. intro Cdc. exact type_whole. Qed.
Print Assumptions C58_decoded_whole.
(** The others return something else. *)
Theorem C58_widened_refuted : forall {Cdc : codec} h W m x v, session h = OK W -> loaded W m <> None -> In ((m, x), v) widening ->
  exists s t b, definition m x = Some s /\ schema W m x = Some (t, None) /\ encode t v = Ok b /\ decode t b = Ok (v, []) /\ whole s v = false.
Proof. intro Cdc. intros h W m x v E L. exact (widening_shown h W m x v E L). Qed.
Print Assumptions C58_widened_refuted.

(** An Extension without critical is an encoding (C50_item), and so is one with critical in
    spite of its being FALSE: of the same value, which is why DER forbids it. *)
Example C58_ex : mem2 deviating ("rfc5280", "Extension") = false /\ mem2 loose_types ("rfc5280", "Extension") = false
  /\ mem2 widened ("rfc5280", "Extension") = false /\ mem2 ambiguous_types ("rfc5280", "Extension") = false /\ mem2 tight ("rfc5280", "Extension") = false.
Proof. repeat split; vm_compute; reflexivity. Qed.
Example C58_item : forall {Cdc : codec}, exists s, definition "rfc5280" "Extension" = Some s /\
  taken_for true false s None (VSeq [Some (VOid [2; 5; 29; 15]%N); Some (VBool false); Some (VOcts [3; 2; 7; 128]%N)])
    [48; 14; 6; 3; 85; 29; 15; 1; 1; 0; 4; 4; 3; 2; 7; 128]%N.
Proof. intro Cdc.
  eexists. split; [vm_compute; reflexivity|]. cbn.
  assert (I : forall n m c, (n <= 30)%N -> (List.length c <= 127)%nat -> an_item (Universal, n) m c ([(if m then 32 else 0) + n; N.of_nat (List.length c)] ++ c)%N).
  { intros n m c Hn Hc. exists [(if m then 32 else 0) + n]%N, [N.of_nat (List.length c)]. repeat split; [exact (one_octet Universal m n Hn)|constructor; lia]. }
  eexists _, [6; 3; 85; 29; 15; 1; 1; 0; 4; 4; 3; 2; 7; 128]%N. split; [reflexivity|]. split; [apply (I 16%N true); cbn; lia|].
  left. exists (VOid [2; 5; 29; 15]%N), [6; 3; 85; 29; 15]%N, [1; 1; 0; 4; 4; 3; 2; 7; 128]%N. repeat split.
  { exists false, [85; 29; 15]%N. split; [apply (I 6%N false); cbn; lia|split; vm_compute; reflexivity]. }
  left. exists (VBool false), [1; 1; 0]%N, [4; 4; 3; 2; 7; 128]%N. repeat split.
  { exists false, [0]%N. split; [apply (I 1%N false); cbn; lia|left; reflexivity]. }
  left. exists (VOcts [3; 2; 7; 128]%N), [4; 4; 3; 2; 7; 128]%N, []. repeat split.
  exists false, [3; 2; 7; 128]%N. split; [apply (I 4%N false); cbn; lia|reflexivity].
Qed.

(** ** C59 *)

(** The deviating types whose difference lies in named components.  [leaves sk s v]: nowhere
    within [v] is a component [Without n] of [sk] present, and every component [Explicit n l] is
    present with a value that is neither the default nor in [l]; within the members of a SET,
    which may be repeated, there are no such components. *)
Theorem C59_confined_sound : forall {Cdc : codec} h W m x, session h = OK W -> forall s t, definition m x = Some s -> schema W m x = Some (t, None) ->
  forall sk, In (m, x) deviating -> exempted (m, x) = Some sk -> ~ In (m, x) ambiguous_types ->
  forall b v rest, forallb is_byte b = true -> decode t b = Ok (v, rest) -> leaves sk s v = true ->
  exists e, b = e ++ rest /\ taken_for false true s None v e.
Proof. intro Cdc. exact confined_sound. Qed.
Print Assumptions C59_confined_sound.
Theorem C59_confined_complete : forall {Cdc : codec} h W m x, session h = OK W -> forall s t, definition m x = Some s -> schema W m x = Some (t, None) ->
  forall sk, In (m, x) deviating -> exempted (m, x) = Some sk -> ~ In (m, x) ambiguous_types -> ~ In (m, x) confined_tight ->
  forall e v rest, forallb is_byte e = true -> taken_for true false s None v e -> leaves sk s v = true -> decode t (e ++ rest) = Ok (v, rest).
Proof. intro Cdc. exact confined_complete. Qed.
Print Assumptions C59_confined_complete.
(** [inexact]: those with an additional alternative or with other constraints besides. *)
Theorem C59_confined_exact : forall {Cdc : codec} h W m x, session h = OK W -> forall s t, definition m x = Some s -> schema W m x = Some (t, None) ->
  forall sk, In (m, x) deviating -> exempted (m, x) = Some sk -> ~ In (m, x) ambiguous_types -> ~ In (m, x) inexact ->
  forall b v rest, forallb is_byte b = true -> leaves sk s v = true ->
  (decode t b = Ok (v, rest) <-> exists e, b = e ++ rest /\ taken_for true false s None v e).
Proof. intro Cdc. exact confined_exact. Qed.
Print Assumptions C59_confined_exact.

(** 45 of the 69; PKCS #8 without attributes, and with a length of more octets than needed. *)
Example C59_ex : forall {Cdc : codec}, List.length (filter (fun e => negb (mem2 inexact (fst e))) confined) = 45%nat /\
  match definition "rfc5208" "PrivateKeyInfo", exempted ("rfc5208", "PrivateKeyInfo") with
  | Some s, Some sk => let v := VSeq [Some (VInt 0); Some (VSeq [Some (VOid [1; 2; 840; 113549; 1; 1; 1]%N); Some (VOcts [5; 0]%N)]); Some (VOcts [48; 0]%N); None] in
      let b := [48; 129; 22; 2; 1; 0; 48; 13; 6; 9; 42; 134; 72; 134; 247; 13; 1; 1; 1; 5; 0; 4; 2; 48; 0]%N in
      mem2 deviating ("rfc5208", "PrivateKeyInfo") = true /\ mem2 inexact ("rfc5208", "PrivateKeyInfo") = false
      /\ mem2 ambiguous_types ("rfc5208", "PrivateKeyInfo") = false /\ leaves sk s v = true
      /\ leaves sk s (VSeq [Some (VInt 0); Some (VSeq [Some (VOid [1; 2; 840; 113549; 1; 1; 1]%N); Some (VOcts [5; 0]%N)]); Some (VOcts [48; 0]%N); Some (VList [])]) = false
      /\ check ["rfc5208"] "rfc5208" "PrivateKeyInfo" (fun _ t => match decode t (b ++ [5; 0])%N with
           | Ok (w, [5; 0]%N) => aval_eqb w v | _ => false end) = true
  | _, _ => False
  end.
Proof. intro Cdc. vm_compute. repeat split. Qed.

(** ** C61 *)

(** The types with other constraints than the RFC's: for every type there is an ASN.1 type that
    is the RFC's but for the constraints, and what the schema object accepts, as values and as
    encodings, is exactly what that type allows (alternatives the RFC lacks aside). *)
Theorem C61_exact_but_for_constraints : forall {Cdc : codec} h W m x, session h = OK W -> forall s t, definition m x = Some s -> schema W m x = Some (t, None) ->
  ~ In (m, x) deviating -> ~ In (m, x) ambiguous_types -> exists s', strip s' = strip s
  /\ (forall v, shaped s' v = true -> allowed t v = bounded s' v)
  /\ (forall e v rest, forallb is_byte e = true -> taken_for true false s' None v e -> decode t (e ++ rest) = Ok (v, rest))
  /\ (forall b v rest, forallb is_byte b = true -> decode t b = Ok (v, rest) -> exists e, b = e ++ rest /\ taken_for true true s' None v e)
  /\ (~ In (m, x) more_alternatives -> forall b v rest, forallb is_byte b = true -> decode t b = Ok (v, rest) ->
       exists e, b = e ++ rest /\ taken_for true false s' None v e).
Proof. intro Cdc. exact own_exact. Qed.
Print Assumptions C61_exact_but_for_constraints.
(** What is decoded is of the RFC's type but for constraints. *)
Theorem C61_decoded_whole : forall {Cdc : codec} h W m x, session h = OK W -> forall s t, definition m x = Some s -> schema W m x = Some (t, None) ->
  ~ In (m, x) deviating -> ~ In (m, x) more_alternatives -> ~ In (m, x) ambiguous_types ->
  forall b v rest, forallb is_byte b = true -> decode t b = Ok (v, rest) -> whole s v = true.
Proof. intro Cdc. exact own_whole. Qed.
Print Assumptions C61_decoded_whole.
(** The same of the types that deviate in named components only. *)
Theorem C61_confined : forall {Cdc : codec} h W m x, session h = OK W -> forall s t, definition m x = Some s -> schema W m x = Some (t, None) ->
  forall sk, In (m, x) deviating -> exempted (m, x) = Some sk -> ~ In (m, x) ambiguous_types -> ~ In (m, x) more_alternatives ->
  exists s', strip s' = strip s /\ forall b v rest, forallb is_byte b = true -> leaves sk s v = true ->
  (decode t b = Ok (v, rest) <-> exists e, b = e ++ rest /\ taken_for true false s' None v e).
Proof. intro Cdc. exact confined_own. Qed.
Print Assumptions C61_confined.

(** 189 of the 258 types with other constraints, X.509 certificates among them, and 57 of the
    69 confined ones; SkipCerts ::= INTEGER (0..MAX) with a SIZE constraint (rfc2459.py l.817-818),
    which no integer satisfies. *)
Example C61_ex : let open q := negb (mem2 deviating q) && negb (mem2 more_alternatives q) && negb (mem2 ambiguous_types q) in
  List.length loose_types = 258%nat /\ List.length (filter open loose_types) = 189%nat
  /\ List.length (filter (fun e => negb (mem2 more_alternatives (fst e))) confined) = 57%nat
  /\ mem2 loose_types ("rfc2459", "Certificate") = true /\ open ("rfc2459", "Certificate") = true
  /\ mem2 tight ("rfc2459", "SkipCerts") = true /\ open ("rfc2459", "SkipCerts") = true
  /\ definition "rfc2459" "SkipCerts" = Some (ACon (RangeC (Some 0%Z) None) (APrim (X680.PInt [])))
  /\ check ["rfc2459"] "rfc2459" "SkipCerts" (fun _ t => match as_bound (APrim (X680.PInt [])) t with
       | ACon (SizeC 0%N None) (APrim (X680.PInt [])) => true | _ => false end) = true.
Proof. vm_compute. repeat split. Qed.

(** ** C62 *)

(** Whatever the RFCs say: a schema object spells an ASN.1 type, [meant t], and pyasn1 does with
    the object what X.680 and X.690 say of the type.  [unspelt]: 23 objects that spell none. *)
Theorem C62_encodes_der : forall h W m x t o, session h = OK W -> schema W m x = Some (t, o) -> ~ In (m, x) unspelt ->
  forall v, has (meant t) v = true -> regular false (meant t) v = true -> encode t v = huge (DER (meant t) v).
Proof. exact (object_encodes (Cdc := false)). Qed.
Print Assumptions C62_encodes_der.
Theorem C62_bounds : forall h W m x t o, session h = OK W -> schema W m x = Some (t, o) -> ~ In (m, x) unspelt ->
  forall v, shaped (meant t) v = true -> allowed t v = bounded (meant t) v.
Proof. exact (object_bounds (Cdc := false)). Qed.
Print Assumptions C62_bounds.
Theorem C62_reads_der : forall {Cdc : codec} h W m x t o, session h = OK W -> schema W m x = Some (t, o) -> ~ In (m, x) unspelt -> ~ In (m, x) ambiguous_types ->
  forall v b rest, has (meant t) v = true -> regular false (meant t) v = true -> normal (meant t) v -> DER (meant t) v = Some b ->
  decode t (b ++ rest) = Ok (v, rest).
Proof. intro Cdc. exact object_reads. Qed.
Print Assumptions C62_reads_der.
Theorem C62_decoder_exact : forall {Cdc : codec} h W m x t o, session h = OK W -> schema W m x = Some (t, o) -> ~ In (m, x) unspelt -> ~ In (m, x) ambiguous_types ->
  forall b v rest, forallb is_byte b = true -> (decode t b = Ok (v, rest) <-> exists e, b = e ++ rest /\ taken_for true false (meant t) None v e).
Proof. intro Cdc. exact object_exact. Qed.
Print Assumptions C62_decoder_exact.
Theorem C62_one_value : forall {Cdc : codec} h W m x t o, session h = OK W -> schema W m x = Some (t, o) -> ~ In (m, x) unspelt -> ~ In (m, x) ambiguous_types ->
  forall e rest v e' rest' v', forallb is_byte e = true -> forallb is_byte e' = true -> e ++ rest = e' ++ rest' ->
  taken_for true false (meant t) None v e -> taken_for true false (meant t) None v' e' -> v = v' /\ e = e'.
Proof. intro Cdc. exact object_one_value. Qed.
Print Assumptions C62_one_value.
(** [odd_defaults]: a DEFAULT that is no value of the type. *)
Theorem C62_decoded_whole : forall {Cdc : codec} h W m x t o, session h = OK W -> schema W m x = Some (t, o) -> ~ In (m, x) unspelt -> ~ In (m, x) ambiguous_types ->
  ~ In (m, x) odd_defaults -> forall b v rest, forallb is_byte b = true -> decode t b = Ok (v, rest) -> whole (meant t) v = true.
Proof. intro Cdc. exact object_whole. Qed.
Print Assumptions C62_decoded_whole.
(** Where the object follows the RFC, the type it spells has the encodings of the RFC's. *)
Theorem C62_means_the_definition : forall {Cdc : codec} h W m x, session h = OK W -> forall s t, definition m x = Some s -> schema W m x = Some (t, None) ->
  ~ In (m, x) deviating -> ~ In (m, x) loose_types -> ~ In (m, x) widened -> ~ In (m, x) ambiguous_types -> ~ In (m, x) unspelt ->
  forall v e, forallb is_byte e = true -> (taken_for true false (meant t) None v e <-> taken_for true false s None v e).
Proof.
  intros Cdc h W m x E s t D HS N L Wd A U v e O.
  pose proof (type_exact h W m x E s t D HS N L Wd A e v [] O) as X. pose proof (object_exact h W m x t None E HS U A e v [] O) as Y. split; intro K.
  - destruct (proj1 X) as (e' & Q & K'); [apply Y; exists e; rewrite app_nil_r; split; [reflexivity|exact K]|]. rewrite app_nil_r in Q. subst e'. exact K'.
  - destruct (proj1 Y) as (e' & Q & K'); [apply X; exists e; rewrite app_nil_r; split; [reflexivity|exact K]|]. rewrite app_nil_r in Q. subst e'. exact K'.
Qed.
Print Assumptions C62_means_the_definition.
(** Not so LDAP's UnbindRequest: the encoding of its only value is that of no ASN.1 type. *)
Theorem C62_spells_a_type_refuted : forall h W, session h = OK W -> loaded W "rfc2251" <> None ->
  exists t o, schema W "rfc2251" "UnbindRequest" = Some (t, o) /\ encode t VNull = Ok [98; 0]%N /\ forall s, DER s VNull <> Some [98; 0]%N.
Proof.
  intros h W E L. pose (Cdc := false : codec).
  assert (C : check ["rfc2251"] "rfc2251" "UnbindRequest" (fun _ t => match encode t VNull with Ok b => list_eqb N.eqb b [98; 0]%N | _ => false end) = true) by (vm_compute; reflexivity).
  destruct (check_everywhere (Cdc := false) _ _ _ _ C h W E L) as (t & o & HS & K). exists t, o. split; [exact HS|]. split.
  - destruct (encode t VNull) as [b| | |]; [|discriminate K|discriminate K|discriminate K]. rewrite (RoundTrip2.list_eqb_N _ _ K). reflexivity.
  - intros s D. exact (proj2 (null_primitive s None _ D) eq_refl).
Qed.
Print Assumptions C62_spells_a_type_refuted.

(** rfc2459.DSAPrivateKey is in no RFC; rfc2251.DelRequest spells an LDAPResult where the RFC
    has an LDAPDN. *)
Example C62_ex : check ["rfc2459"] "rfc2459" "DSAPrivateKey" (fun _ t => match meant t with
    | ASeq [SF "version" Mandatory (APrim (X680.PInt [("v1", 0%Z)])); SF "p" Mandatory (APrim (X680.PInt [])); SF "q" Mandatory (APrim (X680.PInt []));
            SF "g" Mandatory (APrim (X680.PInt [])); SF "public" Mandatory (APrim (X680.PInt [])); SF "private" Mandatory (APrim (X680.PInt []))] => true
    | _ => false end) = true
  /\ check ["rfc2251"] "rfc2251" "DelRequest" (fun _ t => match meant t with
    | ATag Application 10%N false (ASeq [SF "resultCode" _ _; SF "matchedDN" _ _; SF "errorMessage" _ _; SF "referral" _ _]) => true
    | _ => false end) = true
  /\ mem2 unspelt ("rfc2459", "DSAPrivateKey") = false /\ mem2 unspelt ("rfc2251", "DelRequest") = false
  /\ mem2 ambiguous_types ("rfc2459", "DSAPrivateKey") = false /\ mem2 ambiguous_types ("rfc2251", "DelRequest") = false.
Proof. repeat split; vm_compute; reflexivity. Qed.
