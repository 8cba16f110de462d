(** Running tools/ocspclient.py from its source: what it does with a response. *)
From Coq Require Import List String ZArith NArith Bool Lia.
From Verif Require Pem.Text.
From Verif Require Import Py.Syntax Asn1.Types Py.Eval Asn1.Bytes Asn1.EqbFacts Asn1.Der Load.Import Load.Computed Load.Schemas
  Load.Checked Load.CheckedFacts Spec.Facts Tools.Layers Tools.Programs Tools.Ocsp Tools.OcspAnswer Tools.ScriptOcsp.
From Verif Require Tools.ScriptLang Tools.ScriptTop Gen.ScriptOcsp.
Import ListNotations.
Import Tools.ScriptLang Tools.ScriptTop Gen.ScriptOcsp.
Open Scope string_scope.
Open Scope list_scope.
Opaque T session.

Section codec.
Context {Cdc : codec}.
Notation "'let+' x := e 'in' k" := (andthen e (fun x => k)) (at level 200, x pattern, right associativity).
Ltac norm := lazy -[read_pem make make_named decoded get_member get_element get_name equal encoded item_encode call block chars Pem.octets
  response_type basic_type pkix_ocsp_basic].

(** ** The answer *)

(** The program from the response on: the statements up to the definition of parseOcspResponse
    (:8-121), httpRsp being the octets received, and the last three (:164-169). *)
Definition from_response (W : world) (sha1 : bytes -> bytes) (argv : list Text.text) (cb : bool) (response : bytes) : O_ unit :=
  let+ _ := program W sha1 argv ocspclient_py cb (firstn 14 ocspclient_py) in
  let+ _ := bind_name "httpRsp" (OOctets response) in
  program W sha1 argv ocspclient_py cb (skipn 20 ocspclient_py).

Transparent T session.
Definition status_ok : bool :=
  match session ["rfc2560"] with
  | OK W => match schema W "rfc2560" "OCSPResponseStatus" with
            | Some (TPrim KEnum mt, _) => match look (nvals mt) "successful" with Some z => Z.eqb z 0 | None => false end
            | _ => false
            end
  | _ => false
  end.
Lemma status_checked : status_ok = true.
Proof. vm_compute. reflexivity. Qed.
Opaque T session.
Lemma status_named : forall h W, session h = OK W -> loaded W "rfc2560" <> None ->
  exists ts, forall s, make_named W "rfc2560" "OCSPResponseStatus" "successful" s = Goes (OObj ts (Some (VInt 0))) s.
Proof.
  intros h W E L. pose proof status_checked as C. unfold status_ok in C. destruct (session ["rfc2560"]) as [W0|e|e] eqn:E0; [|discriminate C|discriminate C].
  destruct (schema W0 "rfc2560" "OCSPResponseStatus") as [[t o]|] eqn:HS; [|discriminate C].
  pose proof (schema_loaded _ _ _ _ HS) as L0. 
  pose proof (eq_trans (schema_is h W _ "OCSPResponseStatus" E L) (eq_trans (eq_sym (schema_is _ W0 _ _ E0 L0)) HS)) as Q.
  destruct t as [k mt| | |]; try discriminate C. destruct k; try discriminate C. destruct (look (nvals mt) "successful") as [z|] eqn:HL; [|discriminate C].
  apply Z.eqb_eq in C. subst z. exists (TPrim KEnum mt). intro s. unfold make_named. rewrite Q, HL. reflexivity.
Qed.
Lemma get_got : forall t v n t' o s, get t v n = Some (t', o) -> get_member t (Some v) n s = Goes (OObj t' o) s.
Proof.
  intros t v n t' o s H. unfold get in H. unfold get_member. destruct (component_type t n) as [u|]; [|discriminate H].
  destruct (component t v n) as [x|]; [|discriminate H]. injection H as <- <-. reflexivity.
Qed.
Lemma get_none : forall t n t' s, component_type t n = Some t' -> get_member t None n s = Goes (OObj t' None) s.
Proof. intros t n t' s H. unfold get_member. rewrite H. reflexivity. Qed.
Lemma sub_type : forall t v n t' w, sub t v n = Some (t', w) -> component_type t n = Some t'.
Proof. intros t v n t' w H. unfold sub in H. destruct (component_type t n); [|discriminate H]. destruct (component t v n) as [[x|]|]; try discriminate H. injection H as <- _. reflexivity. Qed.
Lemma get_type : forall t v n t' o, get t v n = Some (t', o) -> component_type t n = Some t'.
Proof. intros t v n t' o H. unfold get in H. destruct (component_type t n); [|discriminate H]. destruct (component t v n) as [x|]; try discriminate H. injection H as <- _. reflexivity. Qed.
Lemma decoded_object : forall t' t b s, decoded (OObj t' (Some (VOcts b))) t s = decoded (OOctets b) t s.
Proof. reflexivity. Qed.
Lemma equal_none : forall t t' w s, equal (OObj t None) (OObj t' w) s = Dies "PyAsn1Error" s.
Proof. reflexivity. Qed.

(** The globals after :121. *)
Definition defined : list (string * ov) :=
  [("parseOcspResponse", OFun "parseOcspResponse"); ("mkOcspRequest", OFun "mkOcspRequest");
   ("valueOnlyBitStringEncoder", OInst "ValueOnlyBitStringEncoder"); ("ValueOnlyBitStringEncoder", OClass "ValueOnlyBitStringEncoder");
   ("sha1oid", OOid [ONum 1; ONum 3; ONum 14; ONum 3; ONum 2; ONum 26]); ("pem", OName "pyasn1_modules.pem");
   ("rfc2459", OName "pyasn1_modules.rfc2459"); ("rfc2560", OName "pyasn1_modules.rfc2560"); ("univ", OName "pyasn1.type.univ");
   ("encoder", OName "pyasn1.codec.der.encoder"); ("decoder", OName "pyasn1.codec.der.decoder"); ("urllib2", OName "urllib2");
   ("sys", OName "sys"); ("hashlib", OName "hashlib")].
Lemma defines : forall W sha1 argv f, program W sha1 argv ocspclient_py true (firstn 14 ocspclient_py) (mkSt [] None f []) = Goes tt (mkSt defined None f []).
Proof.
  intros W sha1 argv f. unfold ocspclient_py at 2. cbn [firstn]. do 14 (erewrite goes; [|vm_compute; reflexivity]). reflexivity.
Qed.

(** ** The usage *)

Lemma program_app : forall W sha1 argv pr cb l l' s s', program W sha1 argv pr cb l s = Goes tt s' ->
  program W sha1 argv pr cb (l ++ l') s = program W sha1 argv pr cb l' s'.
Proof.
  intros W sha1 argv pr cb l l'. induction l as [|p l IH]; intros s s' H; [injection H as <-; reflexivity|]. cbn [program app] in *. unfold andthen in *.
  destruct (exec_top W sha1 argv pr cb p s) as [r s1|e s1|z s1|]; try discriminate H. exact (IH _ _ H).
Qed.
Lemma program_exits : forall W sha1 argv pr cb p l s z s', exec_top W sha1 argv pr cb p s = Exits z s' -> program W sha1 argv pr cb (p :: l) s = Exits z s'.
Proof. intros W sha1 argv pr cb p l s z s' H. cbn [program]. unfold andthen. rewrite H. reflexivity. Qed.
Definition usage_if : top := nth 14 ocspclient_py (TImport "" "" "").
Lemma usage_exits : forall W sha1 prog args f, List.length args <> 1%nat ->
  exec_top W sha1 (prog :: args) ocspclient_py true usage_if (mkSt defined None f []) =
  Exits (-1) (mkSt defined None f [OFormat ("Usage:" ++ String (Ascii.ascii_of_nat 10) "$ cat CACertificate.pem userCertificate.pem | %s <ocsp-responder-url>") (OText prog)]).
Proof.
  intros W sha1 prog [|a [|b l]] f H; [vm_compute; reflexivity|exfalso; apply H; reflexivity|].
  assert (N : Z.eqb (Z.of_nat (S (S (S (List.length (map OText l)))))) 2 = false) by (apply Z.eqb_neq; lia).
  unfold usage_if. unfold ocspclient_py at 2. cbn [nth exec_top exec]. set (c := value _ _ _ _ _ (XCmp _ _ _)).
  assert (C : c (mkSt defined None f []) = Goes (OBool (negb (Z.eqb (Z.of_nat (S (S (S (List.length (map OText l)))))) 2))) (mkSt defined None f [])) by reflexivity.
  unfold andthen at 1. rewrite C, N. cbn [negb]. vm_compute. reflexivity.
Qed.
Lemma ocsp_usage : forall W sha1 prog args f, List.length args <> 1%nat ->
  exists g, program W sha1 (prog :: args) ocspclient_py true ocspclient_py (mkSt [] None f []) =
  Exits (-1) (mkSt g None f [OFormat ("Usage:" ++ String (Ascii.ascii_of_nat 10) "$ cat CACertificate.pem userCertificate.pem | %s <ocsp-responder-url>") (OText prog)]).
Proof.
  intros W sha1 prog args f H. exists defined.
  assert (Q : ocspclient_py = firstn 14 ocspclient_py ++ usage_if :: skipn 15 ocspclient_py) by reflexivity.
  rewrite Q at 2. rewrite (program_app _ _ _ _ _ _ _ _ _ (defines W sha1 (prog :: args) f)). apply program_exits. exact (usage_exits W sha1 prog args f H).
Qed.

(** parseOcspResponse, its body. *)
Definition parse_body : list ps := match function ocspclient_py "parseOcspResponse" with Some (_, b) => b | None => [] end.
Definition received (response : bytes) (v : aval) (rest : bytes) : list (string * ov) :=
  ("_", OOctets rest) :: ("ocspRsp", OObj response_type (Some v)) :: ("httpRsp", OOctets response) :: defined.
Ltac block_get R H := erewrite block_goes in R; [|norm; rewrite (get_sub _ _ _ _ _ _ H); norm; reflexivity].
Lemma aval_oid : forall a b, aval_eqb (VOid a) (VOid b) = list_eqb N.eqb a b.
Proof. reflexivity. Qed.
Lemma element_first : forall b m te w l s, get_element (TOf b m (Some te)) (Some (VList (w :: l))) 0 s = Goes (OObj te (Some w)) s.
Proof. reflexivity. Qed.
Lemma element_none : forall b m te s, get_element (TOf b m (Some te)) (Some (VList [])) 0 s = Goes (OObj te None) s.
Proof. reflexivity. Qed.
Lemma name_is : forall t w n s, chosen_name t w = Some n -> get_name t (Some w) s = Goes (OStr n) s.
Proof. intros t w n s H. unfold get_name. rewrite H. reflexivity. Qed.
Lemma name_none : forall t s, get_name t None s = Dies "PyAsn1Error" s.
Proof. reflexivity. Qed.

Lemma parse_source : forall h W, session h = OK W -> loaded W "rfc2560" <> None -> forall sha1 argv f response v rest,
  match parseOcspResponse W response_type v with
  | Line serial status produced till => exists l t1 t2 t3 tc w,
      block W sha1 argv ocspclient_py (call W sha1 argv ocspclient_py 2) parse_body
        (mkSt (received response v rest) (Some [("ocspResponse", OObj response_type (Some v))]) f [])
      = Goes (Some (OTuple [OObj t2 (Some produced); OObj tc (Some w); OStr status; OObj t3 (Some till)])) (mkSt (received response v rest) l f [])
      /\ sub tc w "serialNumber" = Some (t1, VInt serial)
  | Crashed e => exists s,
      block W sha1 argv ocspclient_py (call W sha1 argv ocspclient_py 2) parse_body
        (mkSt (received response v rest) (Some [("ocspResponse", OObj response_type (Some v))]) f []) = Dies e s /\ said s = []
  | Beyond => True
  end.
Proof.
  intros h W E L sha1 argv f response v rest. destruct (answer_objects h W E L) as (S1 & S2 & S3). destruct (status_named h W E L) as (ts & HN).
  unfold parseOcspResponse, type_of. rewrite S2, S3. cbn [option_map fst].
  assert (M2 : forall s, make W "rfc2560" "BasicOCSPResponse" s = Goes (OObj basic_type None) s) by (intro s; unfold make; rewrite S2; reflexivity).
  assert (M3 : exists t3, forall s, make W "rfc2560" "id_pkix_ocsp_basic" s = Goes (OObj t3 (Some (VOid pkix_ocsp_basic))) s).
  { unfold oid_of in S3. destruct (schema W "rfc2560" "id_pkix_ocsp_basic") as [[t3 [[]|]]|] eqn:Q; try discriminate S3. injection S3 as ->.
    exists t3. intro s. unfold make. rewrite Q. reflexivity. }
  destruct M3 as (t3 & M3). clear S1 S2 S3.
  set (P := block _ _ _ _ _ _ _). assert (R : exists q, q = P) by (eexists; reflexivity). destruct R as [q R]. rewrite <- R. unfold P in R. clear P.
  destruct (sub response_type v "responseStatus") as [[tst wst]|] eqn:G1; [|exact I]. destruct wst as [ |status| | | | | | | | | ]; try exact I.
  destruct (get response_type v "responseBytes") as [[tb bytes]|] eqn:G2; [|exact I].
  unfold parse_body in R. cbn [function ocspclient_py String.eqb Ascii.eqb Bool.eqb] in R.
  block_get R G1.
  destruct (Z.eqb status 0) eqn:ST.
  2: { erewrite block_dies in R; [|norm; rewrite HN; norm; rewrite equal_is; cbn [aval_eqb]; rewrite ST; norm; reflexivity]. eexists. split; [exact R|reflexivity]. }
  erewrite block_goes in R; [|norm; rewrite HN; norm; rewrite equal_is; cbn [aval_eqb]; rewrite ST; norm; reflexivity].
  erewrite block_goes in R; [|norm; rewrite (get_got _ _ _ _ _ _ G2); norm; reflexivity].
  destruct bytes as [rb|].
  2: { apply get_type in G2. vm_compute in G2. injection G2 as <-.
       erewrite block_goes in R; [|norm; erewrite get_none by (vm_compute; reflexivity); norm; reflexivity].
       erewrite block_dies in R; [|norm; rewrite M3; norm; rewrite equal_none; norm; reflexivity]. eexists. split; [exact R|reflexivity]. }
  destruct (sub tb rb "responseType") as [[trt wrt]|] eqn:G3; [|exact I]. destruct wrt as [ | | | | |a| | | | | ]; try exact I.
  destruct (sub tb rb "response") as [[tre wre]|] eqn:G4; [|exact I]. destruct wre as [ | | |b| | | | | | | ]; try exact I.
  block_get R G3.
  destruct (list_eqb N.eqb a pkix_ocsp_basic) eqn:OE.
  2: { erewrite block_dies in R; [|norm; rewrite M3; norm; rewrite equal_is, aval_oid, OE; norm; reflexivity]. eexists. split; [exact R|reflexivity]. }
  erewrite block_goes in R; [|norm; rewrite M3; norm; rewrite equal_is, aval_oid, OE; norm; reflexivity].
  block_get R G4. unfold basic_answer.
  destruct (decode basic_type b) as [[v2 r2]| | |] eqn:HD; cbn [answered fst]; [| | |exact I].
  2-3: erewrite block_dies in R; [|norm; rewrite M2; norm; rewrite decoded_object, decoded_is, HD; norm; reflexivity]; eexists; split; [exact R|reflexivity].
  erewrite block_goes in R; [|norm; rewrite M2; norm; rewrite decoded_object, decoded_is, HD; norm; reflexivity].
  destruct (at_path basic_type v2 ["tbsResponseData"; "producedAt"]) as [[tp produced]|] eqn:P1; [|exact I].
  destruct (at_path basic_type v2 ["tbsResponseData"; "responses"]) as [[tl wl]|] eqn:P2; [|exact I].
  destruct tl as [| |isset ml [te|]|]; try exact I. destruct wl as [ | | | | | | | |l| | ]; try exact I.
  apply at_two in P1. destruct P1 as (td & wd & P1a & P1b). apply at_two in P2. destruct P2 as (td' & wd' & P2a & P2b).
  rewrite P1a in P2a. injection P2a as <- <-. block_get R P1a.
  unfold first_response. destruct l as [|r0 l].
  - apply sub_type in P1a. vm_compute in P1a. injection P1a as <-. pose proof (sub_type _ _ _ _ _ P2b) as K. vm_compute in K. injection K as <- <- <-.
    erewrite block_goes in R; [|norm; rewrite (get_sub _ _ _ _ _ _ P2b); norm; rewrite element_none; norm; reflexivity].
    erewrite block_dies in R.
    2: { norm. rewrite (get_sub _ _ _ _ _ _ P1b). norm. erewrite get_none by (vm_compute; reflexivity). norm. erewrite get_none by (vm_compute; reflexivity). norm.
         rewrite name_none. norm. reflexivity. }
    eexists. split; [exact R|reflexivity].
  - destruct (at_path te r0 ["certID"; "serialNumber"]) as [[tz wz]|] eqn:Q1; [|exact I]. destruct wz as [ |serial| | | | | | | | | ]; try exact I.
    destruct (sub te r0 "certStatus") as [[tc c]|] eqn:Q2; [|exact I]. destruct (sub te r0 "thisUpdate") as [[tt' till]|] eqn:Q3; [|exact I].
    destruct (chosen_name tc c) as [n|] eqn:CN; [|exact I]. apply at_two in Q1. destruct Q1 as (tid & wid & Q1a & Q1b).
    erewrite block_goes in R; [|norm; rewrite (get_sub _ _ _ _ _ _ P2b); norm; rewrite element_first; norm; reflexivity].
    eexists _, tz, tp, tt', tid, wid. split; [|exact Q1b]. rewrite R. clear R.
    cbn [block]. unfold andthen at 1.
    norm. rewrite (get_sub _ _ _ _ _ _ P1b). norm. rewrite (get_sub _ _ _ _ _ _ Q1a). norm. rewrite (get_sub _ _ _ _ _ _ Q2). norm.
    rewrite (name_is _ _ _ _ CN). norm. rewrite (get_sub _ _ _ _ _ _ Q3). norm. reflexivity.
Qed.

Theorem answer_source : forall h W, session h = OK W -> loaded W "rfc2560" <> None -> forall sha1 argv f response,
  match ocsp_answer W response with
  | Line serial status produced till => exists s t1 t2 t3, from_response W sha1 argv true response (mkSt [] None f []) = Goes tt s /\
      said s = [OFormat ("Certificate ID %s is %s at %s till %s" ++ String (Ascii.ascii_of_nat 10) "")
                 (OTuple [OObj t1 (Some (VInt serial)); OStr status; OObj t2 (Some produced); OObj t3 (Some till)])]
  | Crashed e => exists s, from_response W sha1 argv true response (mkSt [] None f []) = Dies e s /\ said s = []
  | Beyond => True
  end.
Proof.
  intros h W E L sha1 argv f response. destruct (answer_objects h W E L) as (S1 & S2 & S3). destruct (status_named h W E L) as (ts & HN).
  unfold ocsp_answer, type_of. rewrite S1. cbn [option_map fst]. clear ts HN S2 S3.
  assert (M1 : forall s, make W "rfc2560" "OCSPResponse" s = Goes (OObj response_type None) s) by (intro s; unfold make; rewrite S1; reflexivity).
  set (P := from_response _ _ _ _ _ _). assert (R : exists q, q = P) by (eexists; reflexivity). destruct R as [q R]. rewrite <- R. unfold P in R. clear P.
  unfold from_response in R. unfold andthen at 1 in R. rewrite defines in R. unfold andthen, bind_name in R. cbn [locals globals stdin said] in R.
  unfold ocspclient_py at 2 in R. cbn [skipn] in R.
  destruct (decode response_type response) as [[v r]| | |] eqn:HD; cbn [answered fst]; [| | |exact I].
  2-3: erewrite dies_here in R; [|norm; rewrite M1; norm; rewrite decoded_is, HD; norm; reflexivity]; eexists; split; [exact R|reflexivity].
  erewrite goes in R; [|norm; rewrite M1; norm; rewrite decoded_is, HD; norm; reflexivity]. clear HD.
  pose proof (parse_source h W E L sha1 argv f response v r) as PS.
  destruct (parseOcspResponse W response_type v) as [serial status produced till|e|]; [| |exact I].
  - destruct PS as (l & t1 & t2 & t3 & tc & w & B & SB).
    erewrite goes in R; [|norm; erewrite call_goes; [|reflexivity|exact B]; norm; reflexivity].
    erewrite goes in R; [|norm; rewrite (get_sub _ _ _ _ _ _ SB); norm; reflexivity].
    eexists _, t1, t2, t3. split; [exact R|reflexivity].
  - destruct PS as (s & B & SD). erewrite dies_here in R; [|norm; erewrite call_dies; [|reflexivity|exact B]; reflexivity].
    exists s. split; [exact R|exact SD].
Qed.
End codec.
