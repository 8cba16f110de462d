(** Properties C46, C47 and C56: the registries and the open components against the RFCs.

    Vocabulary: that of SpecProps, and: [reg_of W d k] is the schema object that the registry
    [d] (module and name of the dictionary) holds for the key [k]; [associations] lists which
    type the RFC of a module associates with which identifier, for which registry
    (Spec/Associations.v), [key_of m i] is the number of the identifier and [sty_of m c] the
    RFC's type; [hidden d]: a dictionary that only its module sees, whose contents are copied
    to another one; [slots] lists the components that the RFCs define by another component
    (Spec/Slots.v); [decode_open R t s] is decode(s, asn1Spec=t, decodeOpenTypes=True);
    [slot_of fs vs n] is the component named [n]. *)
From Coq Require Import List String ZArith NArith Bool Lia.
From Verif Require Import Py.Syntax Asn1.Types Py.Eval Asn1.EqbFacts Gen.All Asn1.Bytes Asn1.Der Asn1.Wf Asn1.Open Asn1.OpenDepth Asn1.Opening Asn1.Reencode Asn1.Opened Asn1.Inside
  Load.Import Load.Table Load.Computed Load.Schemas Load.Checked Load.CheckedFacts
  Spec.X680 Spec.X690 Spec.Agree Spec.Conform Spec.Reads Spec.Catalogue Spec.Deviations Spec.Oids
  Spec.Associations Spec.Slots Spec.Checked Spec.Facts Spec.Instances Spec.Registered.
Import ListNotations.
Open Scope string_scope.
Open Scope list_scope.

(** ** C46 *)

(** Whatever a registry holds for a key, in any session, is the type that an RFC associates
    with that key in that registry: it encodes the values of the RFC's type as X.690 says and
    decodes their encodings.  Left out are the five registrations of C46_strays_refuted, the
    types of C36 and C45, and id-cmc-statusInfoV2 (C37). *)
Theorem C46_registered_types : forall {Cdc : codec} h W, session h = OK W -> forall d k t, reg_of W d k = Some t -> hidden d = false ->
  exists a, In a associations /\ loaded W (as_module a) <> None /\ as_registry a = d /\ key_of (as_module a) (as_id a) = Some k /\
    (among strays a = false -> exists s, sty_of (as_module a) (as_type a) = Some s /\
      (~ listed deviating a ->
        (forall v, has s v = true -> regular false s v = true -> encode t v = huge (DER s v)) /\
        (~ listed tight a -> k <> statusInfoV2 -> forall v b rest, has s v = true -> regular false s v = true -> normal s v ->
          DER s v = Some b -> decode t (b ++ rest) = Ok (v, rest)))).
Proof. intro Cdc. exact registered_types. Qed.
Print Assumptions C46_registered_types.

(** Every association of a loaded module is in its registry. *)
Theorem C46_associations_present : forall h W, session h = OK W -> forall a, In a associations -> loaded W (as_module a) <> None ->
  exists k t, key_of (as_module a) (as_id a) = Some k /\ reg_of W (as_registry a) k = Some t.
Proof. exact (associations_present (Cdc := false)). Qed.
Print Assumptions C46_associations_present.

(** Associations of an RFC that no module of /repo registers. *)
Theorem C46_omissions_refuted : forall h W, session h = OK W -> forall a, In a omitted ->
  exists k, key_of (as_module a) (as_id a) = Some k /\ reg_of W (as_registry a) k = None.
Proof. exact (omissions_absent (Cdc := false)). Qed.
Print Assumptions C46_omissions_refuted.

(** Registrations of another type: the value shows it. *)
Theorem C46_strays_refuted : forall {Cdc : codec} h W m d i v, session h = OK W -> loaded W m <> None -> In (m, d, i, v) strays ->
  exists a k, In a associations /\ as_module a = m /\ as_registry a = d /\ as_id a = i /\ key_of m i = Some k /\
    (~ In (d, k) (order_dependent ++ overridden) -> exists t, reg_of W d k = Some t /\
      match sty_of m (as_type a) with
      | Some s =>
          (has s v = true /\ encode t v <> huge (DER s v) /\ encode t v <> Unm) \/
          (has s v = true /\ exists b, DER s v = Some b /\ (decode t b = Err \/ exists w, decode t b = Ok (w, []) /\ encode t w <> Ok b)) \/
          (has s v = false /\ exists b, encode t v = Ok b)
      | None => exists b, encode t v = Ok b
      end).
Proof. intro Cdc.
  intros h W m d i v E L I. destruct (strays_differ h W m d i v E L I) as (a & k & A & B & C & D & K & P).
  exists a, k. do 5 (split; [assumption|]). intro N. destruct (P N) as (t & G & Q). exists t. split; [exact G|].
  destruct (sty_of m (as_type a)) as [s|]; [exact (differs_so s t v Q)|exact Q].
Qed.
Print Assumptions C46_strays_refuted.
(** Registrations without the bounds of the RFC's type. *)
Theorem C46_bounds_refuted : forall h W m d i v, session h = OK W -> loaded W m <> None -> In (m, d, i, v) wide ->
  exists a k s, In a associations /\ as_module a = m /\ as_registry a = d /\ as_id a = i /\ key_of m i = Some k /\
    sty_of m (as_type a) = Some s /\
    (~ In (d, k) (order_dependent ++ overridden) -> exists t, reg_of W d k = Some t /\ shaped s v = true /\ allowed t v <> bounded s v).
Proof. exact (wide_accept (Cdc := false)). Qed.
Print Assumptions C46_bounds_refuted.

(** How many; the associations that are known to be strays; and whether another module may
    override them. *)
Example C46_tables_ex : List.length associations = 626%nat /\ List.length (filter (among strays) associations) = 5%nat
  /\ List.length omitted = 19%nat.
Proof. repeat split; vm_compute; reflexivity. Qed.
Definition settled (e : string * did * ident * aval) : bool :=
  match e with
  | (m, d, i, _) => match key_of m i with
      | Some k => negb (existsb (fun q => did_eqb (fst q) d && key_eqb (snd q) k) (order_dependent ++ overridden))
      | None => false
      end
  end.
Example C46_settled_ex : map settled (strays ++ wide) = [true; true; true; true; true; true; true].
Proof. vm_compute. reflexivity. Qed.
(** keyUsage: digitalSignature and keyCertSign. *)
Example C46_ex : forall {Cdc : codec}, key_of "rfc5280" (Id "id-ce-keyUsage") = Some (KeyOid [2; 5; 29; 15]%N) /\
  existsb (fun a => String.eqb (as_module a) "rfc5280" && ident_eqb (as_id a) (Id "id-ce-keyUsage") && negb (among strays a)) associations = true /\
  match definition "rfc5280" "KeyUsage" with
  | Some s => let v := VBits [true; false; false; false; false; true] in
      has s v = true /\ regular false s v = true /\ DER s v = Some [3; 2; 2; 132]%N /\
      check ["rfc5280"] "rfc5280" "Extension" (fun W _ =>
        match reg_of W ("rfc5280", "certificateExtensionsMap") (KeyOid [2; 5; 29; 15]%N) with
        | Some t => match decode t [3; 2; 2; 132; 5; 0]%N with Ok (w, [5; 0]%N) => aval_eqb w v | _ => false end
        | None => false
        end) = true
  | None => False
  end.
Proof. intro Cdc. vm_compute. repeat split. Qed.

(** ** C47 *)

(** Every open component of every type of the package is one that the RFC defines by that other
    component, and the registry is the one for it; but for three (C47_misplaced). *)
Theorem C47_open_components : forall h W m x t o, session h = OK W -> schema W m x = Some (t, o) ->
  forall b ms fs f g d, inside (TSeq b ms fs) t -> In f fs -> fopen f = Some (g, d) ->
  exists r, In r (slots ++ misplaced) /\ fname f = sl_component r /\ g = sl_governor r /\ d = sl_registry r /\ map fname fs = sl_names r.
Proof. exact (open_components (Cdc := false)). Qed.
Print Assumptions C47_open_components.
(** Every such component is open. *)
Theorem C47_slots_open : forall h W r, session h = OK W -> In r (slots ++ misplaced) -> loaded W (fst (sl_type r)) <> None ->
  exists b ms fs o f, schema W (fst (sl_type r)) (snd (sl_type r)) = Some (TSeq b ms fs, o) /\ map fname fs = sl_names r /\
    In f fs /\ fname f = sl_component r /\ fopen f = Some (sl_governor r, sl_registry r).
Proof. exact (slot_present (Cdc := false)). Qed.
Print Assumptions C47_slots_open.
(** After decoding with decodeOpenTypes it is absent or holds objects of the type that the
    registry has for the value of the other component, decoded from octets. *)
Theorem C47_decoded_as_registered : forall {Cdc : codec} h W r t o s v rest, session h = OK W -> In r (slots ++ misplaced) ->
  schema W (fst (sl_type r)) (snd (sl_type r)) = Some (t, o) -> decode_open (reg_of W) t s = Ok (v, rest) ->
  exists b ms fs ws, t = TSeq b ms fs /\ v = VSeq ws /\ forall k u, gov_key (slot_of fs ws (sl_governor r)) = Some k ->
    reg_of W (sl_registry r) k = Some u ->
    let one x := exists y bs rest' n, x = VTyped u (Some y) /\ decode_with (Some (opener_of (reg_of W) n)) u bs = Ok (y, rest') in
    match slot_of fs ws (sl_component r) with
    | None => True
    | Some (VList l) => Forall one l
    | Some x => one x
    end.
Proof. intro Cdc. exact slot_opens. Qed.
Print Assumptions C47_decoded_as_registered.
(** Defined by another component in the RFC, yet never decoded as such. *)
Theorem C47_unopened_refuted : forall h W m x c, session h = OK W -> In ((m, x), c) unopened -> loaded W m <> None ->
  exists b ms fs o, schema W m x = Some (TSeq b ms fs, o) /\ In c (map fname fs) /\ forall f, In f fs -> fopen f = None.
Proof. exact (unopened_closed (Cdc := false)). Qed.
Print Assumptions C47_unopened_refuted.
(** encryptedContent is ciphertext; /repo decodes it as the type of the plaintext, which
    succeeds or fails with the ciphertext. *)
Definition ciphertext : bytes := [48; 22; 6; 9; 42; 134; 72; 134; 247; 13; 1; 7; 1; 48; 4; 6; 2; 42; 3; 128; 3; 1; 2; 3]%N.
Theorem C47_misplaced_refuted : forall {Cdc : codec}, exists W t o v, session ["rfc2315"] = OK W /\ schema W "rfc2315" "EncryptedContentInfo" = Some (t, o) /\
  decode t ciphertext = Ok (v, []) /\ decode_open (reg_of W) t ciphertext = Err.
Proof. intro Cdc.
  destruct (check_sound ["rfc2315"] "rfc2315" "EncryptedContentInfo" (fun W t =>
    match decode t ciphertext, decode_open (reg_of W) t ciphertext with Ok (_, []), Err => true | _, _ => false end)) as (W & t & o & E & HS & K);
    [vm_compute; reflexivity|].
  destruct (decode t ciphertext) as [[v [|]]| | |] eqn:D; try discriminate K.
  destruct (decode_open (reg_of W) t ciphertext) eqn:D2; try discriminate K. exists W, t, o, v. repeat split; assumption.
Qed.
Print Assumptions C47_misplaced_refuted.

Example C47_ex : existsb (fun r => String.eqb (snd (sl_type r)) "AttributeTypeAndValue" && String.eqb (sl_component r) "value" && String.eqb (sl_governor r) "type") slots = true
  /\ List.length slots = 31%nat.
Proof. split; vm_compute; reflexivity. Qed.
(** countryName = "SE". *)
Example C47_decoded_ex : forall {Cdc : codec}, check ["rfc5280"] "rfc5280" "AttributeTypeAndValue" (fun W t =>
  match decode_open (reg_of W) t [48; 9; 6; 3; 85; 4; 6; 19; 2; 83; 69]%N, reg_of W ("rfc5280", "certificateAttributesMap") (KeyOid [2; 5; 4; 6]%N) with
  | Ok (VSeq [Some (VOid [2; 5; 4; 6]%N); Some (VTyped u (Some (VText [83; 69]%N)))], []), Some u' => asn1_eqb u u'
  | _, _ => false
  end) = true.
Proof. intro Cdc. vm_compute. reflexivity. Qed.

(** ** C56 *)

(** Encoding what decoding with decodeOpenTypes returns gives the octets that encoding what
    decoding without it returns gives, if the octets of every opened component are the
    encoding of the value they are decoded to.  [keeps] is spelt out in Asn1/Reencode.v. *)
Theorem C56_reencoding : forall {Cdc : codec} h W m x t o, session h = OK W -> schema W m x = Some (t, o) ->
  forall s w rest, decode_open (reg_of W) t s = Ok (w, rest) ->
  exists v, decode t s = Ok (v, rest) /\ opens_to (reg_of W) t v w /\ (keeps (reg_of W) t v w -> encode t w = encode t v).
Proof. intro Cdc.
  intros h W m x t o E HS s w rest D. destruct (open_is_plain (reg_of W) (fun d k u G => proj1 (registered_ok h W d k u E G)) t s w rest
    (type_open_plain h W m x t o E HS) D) as (v & D0 & Q).
  exists v. split; [exact D0|]. split; [exact Q|exact (type_reencoded h W m x t o E HS v w)].
Qed.
Print Assumptions C56_reencoding.
(** Every open component is an ANY or OCTET STRING without a default, or a SET or SEQUENCE OF those, and not of
    the type registered for it; but for subjectKeyIdentifier in rfc2459.Extension
    (C37_subject_key_identifier_refuted). *)
Theorem C56_open_components_carry : forall h W m x t o, session h = OK W -> schema W m x = Some (t, o) ->
  forall s ms fs f n d k u, inside (TSeq s ms fs) t -> In f fs -> fopen f = Some (n, d) -> reg_of W d k = Some u ->
  (d, k) <> (("rfc2459", "certificateExtensionsMap"), KeyOid [2; 5; 29; 14]%N) ->
  fpres f <> Def /\ exists q mt, (ftype f = TPrim q mt \/ exists b mo, ftype f = TOf b mo (Some (TPrim q mt))) /\ (q = KAny \/ q = KOcts) /\
    (tags mt = [] \/ tags_eqb (tags mt) (tags (meta_of u)) && cons_eqb (spec mt) (spec (meta_of u)) = false).
Proof. pose (Cdc := false : codec).
  intros h W m x t o E HS s ms fs f n d k u IN I O G NS. destruct (type_carrying h W m x t o E HS s ms fs f n d k u IN I O G NS) as [P (q & mt & Q & R)].
  split; [exact P|]. exists q, mt. split; [|exact R]. destruct (ftype f) as [q' m'|? ? ?|b mo [t'|]|? ?]; cbn [element] in Q; try discriminate Q.
  - left. exact Q.
  - right. exists b, mo. rewrite Q. reflexivity.
Qed.
Print Assumptions C56_open_components_carry.
(** id-RSASSA-PSS with empty parameters *)
Definition pss : bytes := [48; 13; 6; 9; 42; 134; 72; 134; 247; 13; 1; 1; 10; 48; 0]%N.
(** The condition is needed: RSASSA-PSS parameters that are all defaults (30 00) are lost. *)
Theorem C56_empty_parameters_refuted : forall {Cdc : codec}, exists W t o v w, session ["rfc4055"] = OK W /\ schema W "rfc5280" "AlgorithmIdentifier" = Some (t, o) /\
  decode t pss = Ok (v, []) /\ encode t v = Ok pss /\ decode_open (reg_of W) t pss = Ok (w, []) /\
  encode t w = Ok [48; 11; 6; 9; 42; 134; 72; 134; 247; 13; 1; 1; 10]%N.
Proof. intro Cdc.
  destruct (check_sound ["rfc4055"] "rfc5280" "AlgorithmIdentifier" (fun W t =>
    match decode t pss, decode_open (reg_of W) t pss with
    | Ok (v, []), Ok (w, []) => res_eqb (encode t v) (Ok pss) && res_eqb (encode t w) (Ok [48; 11; 6; 9; 42; 134; 72; 134; 247; 13; 1; 1; 10]%N)
    | _, _ => false
    end)) as (W & t & o & E & HS & K); [vm_cast_no_check (eq_refl true)|].
  destruct (decode t pss) as [[v [|]]| | |] eqn:D; try discriminate K. destruct (decode_open (reg_of W) t pss) as [[w [|]]| | |] eqn:D2; try discriminate K.
  apply andb_true_iff in K. destruct K as [K1 K2]. apply res_eqb_ok in K1. apply res_eqb_ok in K2. exists W, t, o, v, w.
  split; [exact E|]. split; [exact HS|]. split; [exact D|]. split; [exact K1|]. split; [exact D2|exact K2].
Qed.
Print Assumptions C56_empty_parameters_refuted.
(** countryName = "SE": the octets are kept. *)
Definition country : bytes := [48; 9; 6; 3; 85; 4; 6; 19; 2; 83; 69]%N.
Example C56_ex : forall {Cdc : codec}, exists W t o v w, session ["rfc5280"] = OK W /\ schema W "rfc5280" "AttributeTypeAndValue" = Some (t, o) /\
  decode t country = Ok (v, []) /\ decode_open (reg_of W) t country = Ok (w, []) /\ v <> w /\ keeps (reg_of W) t v w /\ encode t w = Ok country.
Proof. intro Cdc.
  destruct (check_sound ["rfc5280"] "rfc5280" "AttributeTypeAndValue" (fun W t =>
    match decode t country, decode_open (reg_of W) t country, t with
    | Ok (VSeq [Some (VOid a); Some (VOcts b)], []), Ok (VSeq [Some (VOid a'); Some (VTyped u (Some x))], []), TSeq false _ [f; g] =>
        match fopen f, fpres f, fopen g, fpres g, ftype g with
        | None, Req, Some (n, d), Req, TPrim _ _ =>
            match reg_of W d (KeyOid a), decode u b with
            | Some u', Ok (y, []) =>
                list_eqb N.eqb a a' && (String.eqb (fname f) n && (did_eqb d ("rfc5280", "certificateAttributesMap")
                && (asn1_eqb u u' && (aval_eqb x y && (res_eqb (enc y false false u) (Ok b) && res_eqb (encode t (VSeq [Some (VOid a'); Some (VTyped u (Some x))])) (Ok country))))))
            | _, _ => false
            end
        | _, _, _, _, _ => false
        end
    | _, _, _ => false
    end)) as (W & t & o & E & HS & K); [vm_cast_no_check (eq_refl true)|].
  destruct (decode t country) as [[v r]| | |] eqn:D; try discriminate K.
  destruct v as [| | | | | | |vs| | |]; try discriminate K. destruct vs as [|[[| | | | |a| | | | |]|] [|[[| | |b| | | | | | |]|] [|]]]; try discriminate K.
  destruct r; try discriminate K. destruct (decode_open (reg_of W) t country) as [[w r]| | |] eqn:D2; try discriminate K.
  destruct w as [| | | | | | |ws| | |]; try discriminate K.
  destruct ws as [|[[| | | | |a'| | | | |]|] [|[[| | | | | | | | | |u [x|]]|] [|]]]; try discriminate K. destruct r; try discriminate K.
  destruct t as [|[|] mt [|f [|g [|]]]| |]; try discriminate K.
  destruct (fopen f) eqn:F1; try discriminate K. destruct (fpres f) eqn:F2; try discriminate K.
  destruct (fopen g) as [[n d]|] eqn:F3; try discriminate K. destruct (fpres g) eqn:F4; try discriminate K.
  destruct (ftype g) as [q mq| | |] eqn:F5; try discriminate K.
  destruct (reg_of W d (KeyOid a)) as [u'|] eqn:G; try discriminate K. destruct (decode u b) as [[y [|]]| | |] eqn:D3; try discriminate K.
  apply andb_true_iff in K. destruct K as [K1 K]. apply andb_true_iff in K. destruct K as [K2 K]. apply andb_true_iff in K. destruct K as [K3 K].
  apply andb_true_iff in K. destruct K as [K4 K]. apply andb_true_iff in K. destruct K as [K5 K]. apply andb_true_iff in K. destruct K as [K6 K].
  apply (list_eqb_sound N.eqb (fun x y => proj1 (N.eqb_eq x y))) in K1. subst a'. apply String.eqb_eq in K2. apply did_eqb_sound in K3. apply asn1_eqb_sound in K4. subst u'.
  apply aval_eqb_sound in K5. subst y. apply res_eqb_ok in K6. apply res_eqb_ok in K.
  exists W, (TSeq false mt [f; g]), o, (VSeq [Some (VOid a); Some (VOcts b)]), (VSeq [Some (VOid a); Some (VTyped u (Some x))]).
  split; [exact E|]. split; [exact HS|]. split; [exact D|]. split; [exact D2|]. split; [intro X; discriminate X|]. split; [|exact K].
  apply kp_seq. constructor; [|constructor; [|constructor]].
  - apply kc_value; [constructor|]. intros dv X. rewrite F2 in X. discriminate X.
  - apply (kc_one _ _ _ _ n d (KeyOid a) u b _ q mq); try assumption.
    + cbn [slot_of]. rewrite K2, String.eqb_refl. reflexivity.
    + subst d. intro X. discriminate X.
    + rewrite F4. apply (ko_made _ _ _ _ x); [exact D3|exact K6|constructor].
Qed.
