(** tools/ocspclient.py: what it prints about a response. *)
From Coq Require Import List String ZArith NArith Bool Lia.
From Verif Require Import Py.Syntax Asn1.Types Py.Eval Asn1.Bytes Asn1.EqbFacts Asn1.Der
  Load.Import Load.Computed Load.Schemas Load.Checked Load.CheckedFacts Spec.X680 Spec.X690 Spec.Octets Spec.Agree Spec.Conform Spec.Looser Spec.Regular
  Spec.Catalogue Spec.Deviations Spec.Checked Spec.Facts Tools.Recode Tools.Layers Tools.Formats Tools.Ocsp.
From Verif Require Spec.Rfc6960.
Import ListNotations.
Open Scope string_scope.
Open Scope list_scope.
Opaque T session.

Section codec.
Context {Cdc : codec}.

(** ** The program *)

(** The line printed at ocspclient.py:172-173 ("Certificate ID %s is %s at %s till %s"), or the
    exception that ends the program. *)
Inductive printed := Line (serial : Z) (status : string) (at_time till : aval) | Crashed (e : string) | Beyond.
Definition answered {A} (x : res A) (k : A -> printed) : printed :=
  match x with Ok a => k a | Err => Crashed "PyAsn1Error" | Huge => Crashed "PyAsn1Error" | Unm => Beyond end.
(** Choice.getName *)
Definition chosen_name (t : asn1) (v : aval) : option string :=
  match t, v with TChoice _ fs, VAlt i _ => option_map fname (nth_error fs i) | _, _ => None end.
(** getComponentByName on a component that may be absent: the type of the component, and its
    value.  pyasn1 puts an object without a value in the place of an absent one. *)
Definition get (t : asn1) (v : aval) (n : string) : option (asn1 * option aval) :=
  match component_type t n, component t v n with Some t', Some o => Some (t', o) | _, _ => None end.

(** getComponentByPosition(0) of responses, and what is asked of it (:113-121, :172).  If there is
    no response, the object that pyasn1 makes up has no certStatus chosen, and getName raises. *)
Definition first_response (t : asn1) (l : list aval) (produced : aval) : printed :=
  match l with
  | [] => Crashed "PyAsn1Error"
  | r0 :: _ =>
      match at_path t r0 ["certID"; "serialNumber"], sub t r0 "certStatus", sub t r0 "thisUpdate" with
      | Some (_, VInt serial), Some (tc, c), Some (_, till) =>
          match chosen_name tc c with Some n => Line serial n produced till | None => Beyond end
      | _, _, _ => Beyond
      end
  end.
(** :107-121 *)
Definition basic_answer (t : asn1) (b : bytes) : printed :=
  answered (decode t b) (fun vr =>
    match at_path t (fst vr) ["tbsResponseData"; "producedAt"], at_path t (fst vr) ["tbsResponseData"; "responses"] with
    | Some (_, produced), Some (TOf _ _ (Some te), VList l) => first_response te l produced
    | _, _ => Beyond
    end).
(** :99-108.  An OBJECT IDENTIFIER without a value raises when it is compared. *)
Definition parseOcspResponse (W : world) (t : asn1) (v : aval) : printed :=
  match sub t v "responseStatus", get t v "responseBytes", oid_of W "rfc2560" "id_pkix_ocsp_basic", type_of W "rfc2560" "BasicOCSPResponse" with
  | Some (_, VInt status), Some (tb, bytes), Some basic, Some t' =>
      if Z.eqb status 0 then
        match bytes with
        | None => Crashed "PyAsn1Error"
        | Some rb =>
            match sub tb rb "responseType", sub tb rb "response" with
            | Some (_, VOid a), Some (_, VOcts b) => if list_eqb N.eqb a basic then basic_answer t' b else Crashed "AssertionError"
            | _, _ => Beyond
            end
        end
      else Crashed "AssertionError"
  | _, _, _, _ => Beyond
  end.
(** :167-173, from the octets of the HTTP response on. *)
Definition ocsp_answer (W : world) (response : bytes) : printed :=
  match type_of W "rfc2560" "OCSPResponse" with
  | Some t => answered (decode t response) (fun vr => parseOcspResponse W t (fst vr))
  | None => Beyond
  end.

(** ** The schema objects *)

Transparent T session.
Definition response_type : asn1 := Eval vm_compute in looked_up "rfc2560" "OCSPResponse".
Definition basic_type : asn1 := Eval vm_compute in looked_up "rfc2560" "BasicOCSPResponse".
(** RFC 6960, appendix B: id-pkix-ocsp-basic is { id-pkix-ocsp 1 }, id-pkix-ocsp is id-ad-ocsp,
    1.3.6.1.5.5.7.48.1. *)
Definition pkix_ocsp_basic : list N := [1; 3; 6; 1; 5; 5; 7; 48; 1; 1]%N.
Definition answer_ok : bool :=
  match session ["rfc2560"] with
  | OK W => opt_eqb entry_eqb (schema W "rfc2560" "OCSPResponse") (Some (response_type, None))
            && opt_eqb entry_eqb (schema W "rfc2560" "BasicOCSPResponse") (Some (basic_type, None))
            && match oid_of W "rfc2560" "id_pkix_ocsp_basic" with Some a => list_eqb N.eqb a pkix_ocsp_basic | None => false end
  | _ => false
  end.
Lemma answer_checked : answer_ok = true.
Proof. vm_compute. reflexivity. Qed.
Opaque T session.
Lemma opt_entry_sound : forall a b, opt_eqb entry_eqb a (Some b) = true -> a = Some b.
Proof. intros [a|] b H; [|discriminate H]. cbn [opt_eqb] in H. apply entry_eqb_iff in H. f_equal. exact H. Qed.
Lemma answer_objects : forall h W, session h = OK W -> loaded W "rfc2560" <> None ->
  schema W "rfc2560" "OCSPResponse" = Some (response_type, None) /\ schema W "rfc2560" "BasicOCSPResponse" = Some (basic_type, None)
  /\ oid_of W "rfc2560" "id_pkix_ocsp_basic" = Some pkix_ocsp_basic.
Proof.
  intros h W E L. pose proof answer_checked as C. unfold answer_ok in C. destruct (session ["rfc2560"]) as [W0|e|e] eqn:E0; [|discriminate C|discriminate C].
  apply andb_true_iff in C. destruct C as [C C3]. apply andb_true_iff in C. destruct C as [C1 C2]. apply opt_entry_sound in C1, C2.
  pose proof (schema_loaded _ _ _ _ C1) as L0.
  assert (Q : forall x, schema W "rfc2560" x = schema W0 "rfc2560" x)
    by (intro x; exact (eq_trans (schema_is h W _ _ E L) (eq_sym (schema_is _ W0 _ _ E0 L0)))).
  split; [exact (eq_trans (Q _) C1)|]. split; [exact (eq_trans (Q _) C2)|]. unfold oid_of in *. rewrite Q.
  destruct (schema W0 "rfc2560" "id_pkix_ocsp_basic") as [[t [v|]]|]; [destruct v; try discriminate C3|discriminate C3|discriminate C3].
  f_equal. revert C3. apply list_eqb_sound. intros x y H. apply N.eqb_eq. exact H.
Qed.

(** ** What it prints *)

Definition status_names : list string := ["good"; "revoked"; "unknown"].
(** What a response says about the first certificate, by RFC 6960, 4.2.1 (the values of a
    BasicOCSPResponse: tbsResponseData first; in it version, responderID, producedAt and
    responses; in a response certID, with the serial number last, certStatus, thisUpdate). *)
Definition said (w : aval) : option (Z * string * aval * aval) :=
  match w with
  | VSeq (Some (VSeq (_ :: _ :: Some produced :: Some (VList (VSeq (Some (VSeq [_; _; _; Some (VInt serial)]) :: Some (VAlt i _) :: Some this :: _) :: _)) :: _)) :: _) =>
      match nth_error status_names i with Some n => Some (serial, n, produced, this) | None => None end
  | _ => None
  end.
Definition line_of (w : aval) : printed :=
  match said w with Some (z, n, p, t) => Line z n p t | None => Crashed "PyAsn1Error" end.

Definition basic_format : format := (Rfc6960.BasicOCSPResponse, []).
Definition response_format : format := (Rfc6960.OCSPResponse, []).
Definition ocsp_response (status : Z) (a : list N) (b : bytes) : aval := VSeq [Some (VInt status); Some (VSeq [Some (VOid a); Some (VOcts b)])].
Lemma ocsp_formats : reads_format ("rfc2560", "OCSPResponse") response_format = true /\ reads_format ("rfc2560", "BasicOCSPResponse") basic_format = true.
Proof. split; vm_compute; reflexivity. Qed.

(** Values of SEQUENCE types, component by component. *)
Definition component_has (p : need) (s : sty) (o : option aval) : bool :=
  match o, p with None, Mandatory => false | None, _ => true | Some x, _ => has s x end.
Fixpoint components_have (fs : list sfield) (vs : list (option aval)) {struct fs} : bool :=
  match fs, vs with
  | [], [] => true
  | SF _ p s :: fs', o :: vs' => component_has p s o && components_have fs' vs'
  | _, _ => false
  end.
Lemma has_seq : forall fs v, has (ASeq fs) v = true -> exists vs, v = VSeq vs /\ components_have fs vs = true.
Proof.
  intros fs v H. destruct v; try discriminate H. exists vs. split; [reflexivity|]. revert vs H. induction fs as [|[n p s] fs IH]; intros [|o vs] H; try discriminate H; [reflexivity|].
  cbn [has] in H. apply andb_true_iff in H. destruct H as [H1 H2]. cbn [components_have]. apply andb_true_iff. split; [exact H1|]. apply IH. exact H2.
Qed.
Lemma components_cons : forall n p s fs vs, components_have (SF n p s :: fs) vs = true ->
  exists o vs', vs = o :: vs' /\ component_has p s o = true /\ components_have fs vs' = true.
Proof.
  intros n p s fs [|o vs] H; [discriminate H|]. cbn [components_have] in H. apply andb_true_iff in H. destruct H as [H1 H2]. exists o, vs. auto.
Qed.
Lemma components_nil : forall vs, components_have [] vs = true -> vs = [].
Proof. intros [|o vs] H; [reflexivity|discriminate H]. Qed.
Lemma there : forall s o, component_has Mandatory s o = true -> exists x, o = Some x /\ has s x = true.
Proof. intros s [x|] H; [exists x; auto|discriminate H]. Qed.

Lemma serial_shape : forall c, has Rfc6960.CertID c = true -> exists alg nh kh z, c = VSeq [alg; nh; kh; Some (VInt z)].
Proof.
  intros c H. apply has_seq in H. destruct H as (vs & -> & H).
  apply components_cons in H. destruct H as (o1 & v1 & -> & _ & H). apply components_cons in H. destruct H as (o2 & v2 & -> & _ & H).
  apply components_cons in H. destruct H as (o3 & v3 & -> & _ & H). apply components_cons in H. destruct H as (o4 & v4 & -> & H4 & H).
  apply components_nil in H. subst v4. apply there in H4. destruct H4 as (x & -> & H4). destruct x; try discriminate H4. exists o1, o2, o3, z. reflexivity.
Qed.
Lemma single_shape : forall r, has Rfc6960.SingleResponse r = true ->
  exists alg nh kh z i x this next exts, r = VSeq [Some (VSeq [alg; nh; kh; Some (VInt z)]); Some (VAlt i x); Some this; next; exts] /\ (i < 3)%nat.
Proof.
  intros r H. apply has_seq in H. destruct H as (vs & -> & H).
  apply components_cons in H. destruct H as (o1 & v1 & -> & H1 & H). apply components_cons in H. destruct H as (o2 & v2 & -> & H2 & H).
  apply components_cons in H. destruct H as (o3 & v3 & -> & H3 & H). apply components_cons in H. destruct H as (o4 & v4 & -> & _ & H).
  apply components_cons in H. destruct H as (o5 & v5 & -> & _ & H). apply components_nil in H. subst v5.
  apply there in H1. destruct H1 as (c & -> & H1). apply there in H2. destruct H2 as (st & -> & H2). apply there in H3. destruct H3 as (this & -> & _).
  apply serial_shape in H1. destruct H1 as (alg & nh & kh & z & ->). destruct st as [| | | | | | | | |i x|]; try discriminate H2.
  exists alg, nh, kh, z, i, x, this, o4, o5. split; [reflexivity|]. destruct i as [|[|[|i]]]; [lia|lia|lia|]. discriminate H2.
Qed.
Lemma data_shape : forall d, has Rfc6960.ResponseData d = true ->
  exists ver rid produced l exts, d = VSeq [ver; rid; Some produced; Some (VList l); exts] /\ forallb (has Rfc6960.SingleResponse) l = true.
Proof.
  intros d H. apply has_seq in H. destruct H as (vs & -> & H).
  apply components_cons in H. destruct H as (o1 & v1 & -> & _ & H). apply components_cons in H. destruct H as (o2 & v2 & -> & _ & H).
  apply components_cons in H. destruct H as (o3 & v3 & -> & H3 & H). apply components_cons in H. destruct H as (o4 & v4 & -> & H4 & H).
  apply components_cons in H. destruct H as (o5 & v5 & -> & _ & H). apply components_nil in H. subst v5.
  apply there in H3. destruct H3 as (p & -> & _). apply there in H4. destruct H4 as (l & -> & H4). destruct l; try discriminate H4.
  exists o1, o2, p, vs, o5. split; [reflexivity|exact H4].
Qed.
Lemma basic_shape : forall w, has Rfc6960.BasicOCSPResponse w = true -> exists d rest, w = VSeq (Some d :: rest) /\ List.length rest = 3%nat /\ has Rfc6960.ResponseData d = true.
Proof.
  intros w H. apply has_seq in H. destruct H as (vs & -> & H).
  apply components_cons in H. destruct H as (o1 & v1 & -> & H1 & H). apply components_cons in H. destruct H as (o2 & v2 & -> & _ & H).
  apply components_cons in H. destruct H as (o3 & v3 & -> & _ & H). apply components_cons in H. destruct H as (o4 & v4 & -> & _ & H).
  apply components_nil in H. subst v4. apply there in H1. destruct H1 as (d & -> & H1). exists d, [o2; o3; o4]. auto.
Qed.

Lemma basic_prints : forall t h W o, session h = OK W -> schema W "rfc2560" "BasicOCSPResponse" = Some (t, o) -> t = basic_type ->
  forall w e junk, encodes basic_format w e -> basic_answer t (e ++ junk) = line_of w.
Proof.
  intros t h W o E HS Q w e junk EN. unfold basic_answer. rewrite (proj1 (format_read _ _ (proj2 ocsp_formats) h W t o E HS w e junk EN)). cbn [answered fst].
  subst t. destruct EN as (H & _). cbn [basic_format fst] in H. apply basic_shape in H. destruct H as (d & rest & -> & LR & H).
  destruct rest as [|r1 [|r2 [|r3 [|]]]]; try discriminate LR. apply data_shape in H. destruct H as (ver & rid & produced & l & exts & -> & H).
  unfold line_of, said. destruct l as [|r0 l].
  - vm_compute. reflexivity.
  - cbn [forallb] in H. apply andb_true_iff in H. destruct H as [H _]. apply single_shape in H.
    destruct H as (alg & nh & kh & z & i & x & this & next & ex & -> & I). destruct i as [|[|[|i]]]; [| | |lia]; vm_compute; reflexivity.
Qed.

Section answers.
  Variables (h : list string) (W : world).
  Hypotheses (E : session h = OK W) (L : loaded W "rfc2560" <> None).

  Lemma answer_is : forall v e junk, encodes response_format v e -> ocsp_answer W (e ++ junk) = parseOcspResponse W response_type v.
  Proof.
    intros v e junk EN. destruct (answer_objects h W E L) as (H1 & _ & _). unfold ocsp_answer, type_of. rewrite H1. cbn [option_map fst].
    rewrite (proj1 (format_read _ _ (proj1 ocsp_formats) h W response_type None E H1 v e junk EN)). reflexivity.
  Qed.
  Lemma parse_is : forall status a b, parseOcspResponse W response_type (ocsp_response status a b)
    = if Z.eqb status 0 then if list_eqb N.eqb a pkix_ocsp_basic then basic_answer basic_type b else Crashed "AssertionError" else Crashed "AssertionError".
  Proof.
    intros status a b. destruct (answer_objects h W E L) as (_ & H2 & H3). unfold parseOcspResponse, type_of. rewrite H2, H3. cbn [option_map fst]. reflexivity.
  Qed.
  Theorem answer_prints : forall e b w e' junk junk', encodes response_format (ocsp_response 0 pkix_ocsp_basic b) e ->
    b = e' ++ junk' -> encodes basic_format w e' -> ocsp_answer W (e ++ junk) = line_of w.
  Proof.
    intros e b w e' junk junk' E1 -> E2. rewrite (answer_is _ e junk E1), parse_is. cbn -[basic_answer basic_type].
    destruct (answer_objects h W E L) as (_ & H2 & _). exact (basic_prints basic_type h W None E H2 eq_refl w e' junk' E2).
  Qed.
  Lemma response_shape : forall v, has Rfc6960.OCSPResponse v = true ->
    exists status bytes, v = VSeq [Some (VInt status); bytes] /\ (bytes = None \/ exists a b, bytes = Some (VSeq [Some (VOid a); Some (VOcts b)])).
  Proof.
    intros v H. apply has_seq in H. destruct H as (vs & -> & H).
    apply components_cons in H. destruct H as (o1 & v1 & -> & H1 & H). apply components_cons in H. destruct H as (o2 & v2 & -> & H2 & H).
    apply components_nil in H. subst v2. apply there in H1. destruct H1 as (x & -> & H1). destruct x; try discriminate H1. exists z, o2. split; [reflexivity|].
    destruct o2 as [rb|]; [right|left; reflexivity]. cbn [component_has] in H2. change (has Rfc6960.ResponseBytes rb = true) in H2.
    apply has_seq in H2. destruct H2 as (ws & -> & H).
    apply components_cons in H. destruct H as (p1 & w1 & -> & G1 & H). apply components_cons in H. destruct H as (p2 & w2 & -> & G2 & H).
    apply components_nil in H. subst w2. apply there in G1, G2. destruct G1 as (a & -> & G1). destruct G2 as (b & -> & G2).
    destruct a; try discriminate G1. destruct b; try discriminate G2. exists arcs, b. reflexivity.
  Qed.
  Lemma parse_status : forall status bytes, status <> 0%Z -> parseOcspResponse W response_type (VSeq [Some (VInt status); bytes]) = Crashed "AssertionError".
  Proof.
    intros status bytes N. apply Z.eqb_neq in N. destruct (answer_objects h W E L) as (_ & H2 & H3). unfold parseOcspResponse, type_of. rewrite H2, H3.
    cbn [option_map fst].
    destruct (sub response_type (VSeq [Some (VInt status); bytes]) "responseStatus") as [[t1 v1]|] eqn:Q1; vm_compute in Q1; [|discriminate Q1].
    injection Q1 as _ <-. destruct (get response_type (VSeq [Some (VInt status); bytes]) "responseBytes") as [[t2 v2]|] eqn:Q2; vm_compute in Q2; [|discriminate Q2].
    rewrite N. reflexivity.
  Qed.
  Theorem answer_cases : forall v e junk, encodes response_format v e ->
    (exists status bytes, v = VSeq [Some (VInt status); bytes] /\ status <> 0%Z /\ ocsp_answer W (e ++ junk) = Crashed "AssertionError")
    \/ v = VSeq [Some (VInt 0); None] /\ ocsp_answer W (e ++ junk) = Crashed "PyAsn1Error"
    \/ (exists a b, v = ocsp_response 0 a b /\ (a <> pkix_ocsp_basic -> ocsp_answer W (e ++ junk) = Crashed "AssertionError")).
  Proof.
    intros v e junk EN. rewrite (answer_is _ e junk EN). destruct EN as (H & _). cbn [response_format fst] in H. apply response_shape in H.
    destruct H as (status & bytes & -> & H). destruct (Z.eq_dec status 0) as [->|N].
    - right. destruct H as [->|(a & b & ->)].
      + left. split; [reflexivity|]. destruct (answer_objects h W E L) as (_ & H2 & H3). unfold parseOcspResponse, type_of. rewrite H2, H3. reflexivity.
      + right. exists a, b. split; [reflexivity|]. intro N. change (parseOcspResponse W response_type (ocsp_response 0 a b) = Crashed "AssertionError").
        rewrite parse_is. cbn -[basic_answer basic_type list_eqb pkix_ocsp_basic]. destruct (list_eqb N.eqb a pkix_ocsp_basic) eqn:Q; [|reflexivity].
        exfalso. apply N. revert Q. apply list_eqb_sound. intros x y Q. apply N.eqb_eq. exact Q.
    - left. exists status, bytes. split; [reflexivity|]. split; [exact N|]. apply parse_status. exact N.
  Qed.
End answers.

End codec.
