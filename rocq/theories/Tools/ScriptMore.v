(** The dump tools that read no PEM loop, run from their source; and what all do with
    arguments. *)
From Coq Require Import List String Ascii ZArith NArith Bool Lia.
From Verif Require Pem.Text Pem.Base64 Pem.Pem Pem.PemFacts Tools.DumpLoop.
From Verif Require Import Py.Syntax Asn1.Types Py.Eval Asn1.Bytes Asn1.Der Load.Import Load.Computed Load.Session Load.Schemas
  Tools.Recode Tools.Layers Tools.Programs Tools.ScriptLang Gen.Scripts Tools.Script Tools.ScriptPem Tools.ScriptTools Tools.ScriptRuns.
Import ListNotations.
Open Scope string_scope.
Open Scope list_scope.
Opaque T session.

Section codec.
Context {Cdc : codec}.


(** ** The tools that read one base64 text *)

Definition b64_scripts : list (list ps * (string * string)) :=
  [(ocspreqdump_py, ("rfc2560", "OCSPRequest")); (ocsprspdump_py, ("rfc2560", "OCSPResponse")); (cmpdump_py, ("rfc4210", "PKIMessage"));
   (crmfdump_py, ("rfc2511", "CertReqMessages"))].

Section tail.
Variable W : world.
Variable argv : list Text.text.
Variable n : nat.
Local Notation pem := (pem_calls W argv n).
Local Notation blk := (block W argv pem n []).
Local Ltac strs := cbn [String.eqb Ascii.eqb Bool.eqb existsb builtins orb var append].
Local Ltac sx := cbn [exec]; unfold test; cbn [eval]; unfold bind, of_some, name; rewrite ?var_put; strs;
  repeat match goal with H : var _ _ = _ |- _ => rewrite H end; unfold ret; cbv beta iota;
  unfold attribute_of; strs; unfold ret; cbv beta iota; unfold calls; cbv beta iota; unfold builtin, method; strs; cbv beta iota;
  unfold bind, of_some, ret; cbv beta iota.

Definition b64_part (c spec : string) : list ps :=
  [PAssign ["substrate"] (XCall (XAttr (XName "pem") "readBase64FromFile") [XAttr (XName "sys") "stdin"] []);
   PIf (XNot (XName "substrate")) [PExpr (XCall (XAttr (XName "sys") "exit") [XInt 0] [])] [];
   PAssign [c; "rest"] (XCall (XAttr (XName "decoder") "decode") [XName "substrate"] [("asn1Spec", XName spec)]);
   PExpr (XCall (XName "print") [XCall (XAttr (XName c) "prettyPrint") [] []] []);
   PAssert (XCmp "==" (XCall (XAttr (XName "encoder") "encode") [XName c] []) (XName "substrate"))].
Definition b64_sees (t : asn1) (f : Text.text) : how * list pv :=
  match fst (Pem.readBase64FromFile f) with
  | Base64.Err e => (Failed (Binascii e), [])
  | Base64.Ok [] => (Exited 0, [])
  | Base64.Ok s =>
      match decode t s with
      | Ok (v, _) =>
          match encode t v with
          | Ok e => if list_eqb N.eqb e s then (Completed, [KPretty t v]) else (Failed AssertionError, [KPretty t v])
          | Unm => (Unmodelled, [KPretty t v])
          | _ => (Failed PyAsn1Error, [KPretty t v])
          end
      | Unm => (Unmodelled, [])
      | _ => (Failed PyAsn1Error, [])
      end
  end.
Lemma b64_runs : forall c spec E t o f, In (c, spec) [("cr", "ocspReq"); ("cr", "certReq"); ("pkiMsg", "pkiMessage")] ->
  var E "sys" = Some (KName "sys") -> var E "decoder" = Some (KName "pyasn1.codec.der.decoder") -> var E "encoder" = Some (KName "pyasn1.codec.der.encoder") ->
  var E "pem" = Some (KModule "pem") -> var E "print" = None -> var E spec = Some (KObj t o) ->
  observe (blk E (b64_part c spec) (mkIO f [])) = b64_sees t f.
Proof.
  intros c spec E t o f I HS HD HE HM HP HO. pose proof (pem_base64 W argv n f []) as C. unfold b64_sees, b64_part.
  assert (S0 : forall r, pem "readBase64FromFile" [KFile] [] (mkIO f []) = r ->
    eval W argv pem [] E (XCall (XAttr (XName "pem") "readBase64FromFile") [XAttr (XName "sys") "stdin"] []) (mkIO f []) = r).
  { intros r Q. cbn [eval]. unfold name at 1. rewrite HM. rewrite (bind_val _ _ _ (KPem "readBase64FromFile") (mkIO f [])) by reflexivity.
    rewrite (bind_val _ _ _ [KFile] (mkIO f [])).
    - erewrite bind_val; [|reflexivity]. exact Q.
    - unfold name at 1. rewrite HS. reflexivity. }
  specialize (S0 _ C). destruct (Pem.readBase64FromFile f) as [[b|e] f']; cbn [base64_result fst] in *.
  2: { erewrite seq_throw; [|cbn [exec]; exact (bind_throw _ _ _ _ _ S0)]. reflexivity. }
  erewrite seq; [|cbn [exec]; rewrite (bind_val _ _ _ _ _ S0); reflexivity].
  set (E1 := put E "substrate" (KBytes b)).
  assert (V1 : var E1 "substrate" = Some (KBytes b)) by (unfold E1; rewrite var_put; reflexivity).
  assert (V : forall y, y <> "substrate" -> var E1 y = var E y).
  { intros y N. unfold E1. rewrite var_put. destruct (String.eqb_spec y "substrate"); [contradiction|reflexivity]. }
  assert (HS1 : var E1 "sys" = Some (KName "sys")) by (rewrite V by discriminate; exact HS).
  assert (HD1 : var E1 "decoder" = Some (KName "pyasn1.codec.der.decoder")) by (rewrite V by discriminate; exact HD).
  assert (HE1 : var E1 "encoder" = Some (KName "pyasn1.codec.der.encoder")) by (rewrite V by discriminate; exact HE).
  assert (HP1 : var E1 "print" = None) by (rewrite V by discriminate; exact HP).
  assert (HO1 : var E1 spec = Some (KObj t o)) by (rewrite V; [exact HO|]; destruct I as [I|[I|[I|[]]]]; injection I as <- <-; discriminate).
  clearbody E1. clear E HS HD HE HM HP HO V S0 C.
  destruct b as [|b0 b1] eqn:EB.
  { cbn [block]. unfold bind at 1. rewrite exec_if. unfold bind at 1, test. cbn [eval]. unfold name. rewrite V1. cbn.
    unfold name. rewrite HS1. reflexivity. }
  assert (NE : truth (KBytes b) = Some true) by (rewrite EB; reflexivity). rewrite <- EB in V1 |- *. clear b0 b1 EB.
  assert (N1 : exec W argv pem n [] E1 (PIf (XNot (XName "substrate")) [PExpr (XCall (XAttr (XName "sys") "exit") [XInt 0] [])] []) (mkIO f' []) = Val (E1, Next) (mkIO f' [])).
  { rewrite exec_if. rewrite (bind_val _ _ _ false (mkIO f' [])); [reflexivity|]. unfold test. cbn [eval]. unfold name. rewrite V1.
    unfold bind, of_some, ret. rewrite NE. reflexivity. }
  rewrite (seq _ _ _ _ _ _ _ _ _ _ _ N1). clear N1.
  assert (DX : forall r, match decode t b with Ok (v, rest) => Val (put (put E1 c (KObj t (Some v))) "rest" (KBytes rest), Next) (mkIO f' []) | Unm => Unmod (mkIO f' []) | _ => Throw PyAsn1Error (mkIO f' []) end = r ->
    exec W argv pem n [] E1 (PAssign [c; "rest"] (XCall (XAttr (XName "decoder") "decode") [XName "substrate"] [("asn1Spec", XName spec)])) (mkIO f' []) = r).
  { intros r Q. subst r. destruct I as [I|[I|[I|[]]]]; injection I as <- <-; sx; cbn [substrate_of]; unfold ret; cbv beta iota; (destruct (decode t b) as [[v rest]| | |]; reflexivity). }
  destruct (decode t b) as [[v rest]| | |] eqn:D; cycle 1.
  1-3: first [rewrite (seq_throw _ _ _ _ _ _ _ _ _ _ _ (DX _ eq_refl)); reflexivity | rewrite (seq_unmod _ _ _ _ _ _ _ _ (DX _ eq_refl)); reflexivity].
  rewrite (seq _ _ _ _ _ _ _ _ _ _ _ (DX _ eq_refl)). clear DX.
  set (E2 := put (put E1 c (KObj t (Some v))) "rest" (KBytes rest)).
  assert (P2 : exec W argv pem n [] E2 (PExpr (XCall (XName "print") [XCall (XAttr (XName c) "prettyPrint") [] []] [])) (mkIO f' []) = Val (E2, Next) (mkIO f' [KPretty t v])).
  { unfold E2. destruct I as [I|[I|[I|[]]]]; injection I as <- <-; sx; reflexivity. }
  rewrite (seq _ _ _ _ _ _ _ _ _ _ _ P2). clear P2.
  assert (AX : exec W argv pem n [] E2 (PAssert (XCmp "==" (XCall (XAttr (XName "encoder") "encode") [XName c] []) (XName "substrate"))) (mkIO f' [KPretty t v])
    = match encode t v with
      | Ok e => if list_eqb N.eqb e b then Val (E2, Next) (mkIO f' [KPretty t v]) else Throw AssertionError (mkIO f' [KPretty t v])
      | Unm => Unmod (mkIO f' [KPretty t v]) | _ => Throw PyAsn1Error (mkIO f' [KPretty t v]) end).
  { unfold E2. destruct I as [I|[I|[I|[]]]]; injection I as <- <-; sx; (destruct (encode t v) as [e| | |]; [|reflexivity..]);
    unfold of_res, ret; cbv beta iota; unfold compare; strs; cbn [equals]; destruct (list_eqb N.eqb e b); reflexivity. }
  destruct (encode t v) as [e| | |].
  2-4: first [rewrite (seq_throw _ _ _ _ _ _ _ _ _ _ _ AX); reflexivity | rewrite (seq_unmod _ _ _ _ _ _ _ _ AX); reflexivity].
  destruct (list_eqb N.eqb e b).
  - rewrite (seq _ _ _ _ _ _ _ _ _ _ _ AX). reflexivity.
  - rewrite (seq_throw _ _ _ _ _ _ _ _ _ _ _ AX). reflexivity.
Qed.
End tail.

(** Agreement with the hand-written program. *)
Definition b64_agrees (t : asn1) (r : result) (o : how * list pv) : Prop :=
  match r with
  | Exit => o = (Exited 0, [])
  | Value v => o = (Completed, [KPretty t v])
  | Raises => exists e l, (List.length l <= 1)%nat /\ o = (Failed e, l)
  | NotModelled => exists l, (List.length l <= 1)%nat /\ o = (Unmodelled, l)
  end.
Local Ltac fin := unfold b64_agrees; first [do 2 eexists; split; [|reflexivity]; cbn; lia | eexists; split; [|reflexivity]; cbn; lia].
Lemma b64_model : forall W m x t f, type_of W m x = Some t -> b64_agrees t (run_b64 W m x f) (b64_sees t f).
Proof.
  intros W m x t f H. unfold run_b64, b64_sees. destruct (fst (Pem.readBase64FromFile f)) as [[|b s]|e].
  - reflexivity.
  - rewrite H. unfold recode_all. destruct (decode t (b :: s)) as [[v r]| | |]; cbn [rbind].
    + destruct (encode t v) as [q| | |]; cbn [rbind].
      * destruct (list_eqb N.eqb q (b :: s)); [reflexivity|]. fin.
      * fin.
      * fin.
      * fin.
    + fin.
    + fin.
    + fin.
  - fin.
Qed.
Definition debugging (src : list ps) (argv : list Text.text) : Prop := (exists a, argv = [a]) \/ (src = cmpdump_py /\ exists a, argv = [a; chars "-d"]).
Local Ltac skip := erewrite seq; [|reflexivity].
Theorem b64_source : forall h W src m x argv n f t, session h = OK W -> In (src, (m, x)) b64_scripts -> loaded W m <> None ->
  debugging src argv -> type_of W m x = Some t -> b64_agrees t (run_b64 W m x f) (observe (run_script W n src argv f)).
Proof.
  intros h W src m x argv n f t S I L A TY.
  assert (K : observe (run_script W n src argv f) = b64_sees t f); [|rewrite K; exact (b64_model W m x t f TY)].
  assert (IC : In (m, x) tool_classes) by (destruct I as [I|[I|[I|[I|[]]]]]; injection I as <- <- <-; cbn; auto 30).
  destruct (class_ready h W m x S IC L) as (RD & t' & o & SC & TY'). rewrite TY in TY'. injection TY' as <-.
  assert (CASES : (exists a, argv = [a]) \/ (exists a, argv = [a; chars "-d"] /\ (src, (m, x)) = (cmpdump_py, ("rfc4210", "PKIMessage")))).
  { destruct A as [A|[-> [a A]]]; [left; exact A|]. right. exists a. split; [exact A|].
    destruct I as [I|[I|[I|[I|[]]]]]; injection I; intros; subst; try discriminate; reflexivity. }
  destruct CASES as [[a ->]|(a & -> & Q)].
  - destruct I as [I|[I|[I|[I|[]]]]]; injection I as <- <- <-; unfold run_script, ocspreqdump_py, ocsprspdump_py, cmpdump_py, crmfdump_py.
    + do 6 skip. erewrite seq; [|cbn [exec]; erewrite bind_val; [reflexivity|apply new_object with (t := t) (o := o); [exact RD|exact SC|reflexivity|reflexivity]]].
      apply (b64_runs W [a] n "cr" "ocspReq" _ t o f); try reflexivity. cbn; auto.
    + do 6 skip. erewrite seq; [|cbn [exec]; erewrite bind_val; [reflexivity|apply new_object with (t := t) (o := o); [exact RD|exact SC|reflexivity|reflexivity]]].
      apply (b64_runs W [a] n "cr" "ocspReq" _ t o f); try reflexivity. cbn; auto.
    + do 7 skip. erewrite seq; [|cbn [exec]; erewrite bind_val; [reflexivity|apply new_object with (t := t) (o := o); [exact RD|exact SC|reflexivity|reflexivity]]].
      apply (b64_runs W [a] n "pkiMsg" "pkiMessage" _ t o f); try reflexivity. cbn; auto.
    + do 6 skip. erewrite seq; [|cbn [exec]; erewrite bind_val; [reflexivity|apply new_object with (t := t) (o := o); [exact RD|exact SC|reflexivity|reflexivity]]].
      apply (b64_runs W [a] n "cr" "certReq" _ t o f); try reflexivity. cbn; auto.
  - injection Q as -> -> ->. unfold run_script, cmpdump_py.
    do 7 skip. erewrite seq; [|cbn [exec]; erewrite bind_val; [reflexivity|apply new_object with (t := t) (o := o); [exact RD|exact SC|reflexivity|reflexivity]]].
    apply (b64_runs W [a; chars "-d"] n "pkiMsg" "pkiMessage" _ t o f); try reflexivity. cbn; auto.
Qed.

(** ** Arguments *)

Definition plain_scripts : list (list ps) :=
  [x509dump_py; x509dump_rfc5280_py; crldump_py; pkcs10dump_py; pkcs1dump_py; pkcs8dump_py; ocspreqdump_py; ocsprspdump_py; crmfdump_py; pkcs7dump_py; cmcdump_py].
Lemma usage_runs : forall W n a b r f src, In src plain_scripts -> exists u v,
  run_script W n src (a :: b :: r) f = Quit (-1) (mkIO f [KFormat u v]).
Proof.
  intros W n a b r f src I.
  assert (Q : forall E s, var E "len" = None -> var E "sys" = Some (KName "sys") ->
    test W (a :: b :: r) (pem_calls W (a :: b :: r) n) [] E (XCmp "!=" (XCall (XName "len") [XAttr (XName "sys") "argv"] []) (XInt 1)) s = Val true s).
  { intros E s HL HS. unfold test. cbn [eval]. unfold name. rewrite HL, HS. cbn -[Z.of_nat Z.eqb List.length map].
    replace (Z.eqb _ 1) with false; [reflexivity|]. symmetry. apply Z.eqb_neq. cbn [map List.length]. lia. }
  unfold plain_scripts in I. cbn [In] in I. repeat match goal with H : _ \/ _ |- _ => destruct H as [H|H] end; try contradiction I; subst src;
    unfold run_script, x509dump_py, x509dump_rfc5280_py, crldump_py, pkcs10dump_py, pkcs1dump_py, pkcs8dump_py, ocspreqdump_py, ocsprspdump_py, crmfdump_py, pkcs7dump_py, cmcdump_py;
    repeat match goal with |- context [block _ _ _ _ _ _ (PIf _ _ _ :: _) _] => fail 1 | _ => erewrite seq; [|reflexivity] end;
    cbn [block]; unfold bind at 1; rewrite exec_if; (erewrite bind_val; [|apply Q; reflexivity]); cbv iota; eexists; eexists; reflexivity.
Qed.
Lemma cmp_usage_runs : forall W n a b r f, (b :: r) <> [chars "-d"] -> exists u v,
  run_script W n cmpdump_py (a :: b :: r) f = Quit (-1) (mkIO f [KFormat u v]).
Proof.
  intros W n a b r f NE. set (argv := a :: b :: r).
  assert (T1 : forall E s, var E "len" = None -> var E "sys" = Some (KName "sys") ->
    test W argv (pem_calls W argv n) [] E (XAnd (XCmp "==" (XCall (XName "len") [XAttr (XName "sys") "argv"] []) (XInt 2))
      (XCmp "==" (XSub (XAttr (XName "sys") "argv") (XInt 1)) (XStr "-d"))) s = Val false s).
  { intros E s HL HS. destruct r as [|c r].
    - assert (H : Text.text_eqb b (chars "-d") = false).
      { destruct (Text.text_eqb b (chars "-d")) eqn:H; [|reflexivity]. apply Text.text_eqb_eq in H. subst b. contradiction. }
      unfold test. cbn [eval]. unfold name. rewrite HL, HS. transitivity (@Val bool (Text.text_eqb b (chars "-d")) s); [reflexivity|rewrite H; reflexivity].
    - unfold test. cbn [eval]. unfold name. rewrite HL, HS. lazy -[Z.of_nat Z.eqb List.length map]. replace (Z.eqb _ 2) with false; [reflexivity|].
      symmetry. apply Z.eqb_neq. unfold argv. cbn [map List.length]. lia. }
  assert (T2 : forall E s, var E "len" = None -> var E "sys" = Some (KName "sys") ->
    test W argv (pem_calls W argv n) [] E (XCmp "!=" (XCall (XName "len") [XAttr (XName "sys") "argv"] []) (XInt 1)) s = Val true s).
  { intros E s HL HS. unfold test. cbn [eval]. unfold name. rewrite HL, HS. lazy -[Z.of_nat Z.eqb List.length map].
    replace (Z.eqb _ 1) with false; [reflexivity|]. symmetry. apply Z.eqb_neq. unfold argv. cbn [map List.length]. lia. }
  unfold run_script, cmpdump_py. do 6 (erewrite seq; [|reflexivity]).
  cbn [block]. unfold bind at 1. rewrite exec_if. erewrite bind_val; [|apply T1; reflexivity]. cbv iota.
  cbn [block]. unfold bind at 1. rewrite exec_if. erewrite bind_val; [|apply T2; reflexivity]. cbv iota. eexists; eexists; reflexivity.
Qed.
End codec.
