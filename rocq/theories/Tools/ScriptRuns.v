(** The dump tools, run from their source: the theorems about each. *)
From Coq Require Import List String Ascii ZArith NArith Bool Lia.
From Verif Require Pem.Text Pem.Base64 Pem.Pem Pem.PemFacts Tools.DumpLoop.
From Verif Require Import Py.Syntax Asn1.Types Py.Eval Asn1.Bytes Asn1.Der Load.Import Load.Computed Load.Session Load.Schemas
  Tools.Recode Tools.Layers Tools.Programs Tools.ScriptLang Gen.Scripts Tools.Script Tools.ScriptPem Tools.ScriptTools.
Import ListNotations.
Open Scope string_scope.
Open Scope list_scope.
Opaque T session.

Section codec.
Context {Cdc : codec}.

(** ** The tools that read PEM blocks *)

Definition pem_scripts : list (list ps * pem_tool * string) :=
  [(x509dump_py, x509dump, "*** %s PEM cert(s) de/serialized"); (x509dump_rfc5280_py, x509dump_rfc5280, "*** %s PEM cert(s) de/serialized");
   (crldump_py, crldump, "*** %s CRL(s) re/serialized"); (pkcs10dump_py, pkcs10dump, "*** %s PEM certificate request(s) de/serialized");
   (pkcs1dump_py, pkcs1dump, "*** %s key(s) re/serialized"); (pkcs8dump_py, pkcs8dump, "*** %s PKCS#8 key(s) de/serialized")].

Local Ltac facts := first [reflexivity | left; reflexivity | right; left; reflexivity | assumption
  | let z := fresh in let I := fresh in intros z I; cbn [In] in I |- *; intuition (subst; try discriminate; auto 10)].

(** One kind of block: the schema object is made before the loop. *)
Local Ltac one c spec k S LD m x :=
  let RD := fresh "RD" in let t := fresh "t" in let o := fresh "o" in let SC := fresh "SC" in let TY := fresh "TY" in
  destruct (class_ready _ _ m x S ltac:(cbn; auto 30) (LD _ (or_introl eq_refl))) as (RD & t & o & SC & TY);
  unfold run_script, x509dump_py, x509dump_rfc5280_py, crldump_py, pkcs10dump_py, pkcs1dump_py, pkcs8dump_py; do 6 (erewrite seq; [|reflexivity]);
  (erewrite seq; [|cbn [exec]; erewrite bind_val; [reflexivity|apply new_object with (t := t) (o := o); [exact RD|exact SC|reflexivity|reflexivity]]]);
  (erewrite seq; [|reflexivity]);
  match goal with |- reported ?W ?p _ _ (observe (block _ ?v _ ?n _ ?E0 _ _)) =>
    apply (tail_runs W v n p [] c spec k ["idx"; "substrate"; c; "rest"; k] E0)
  end;
  [facts..| |facts|facts|split; facts|facts];
  (let E := fresh "E" in let i := fresh "i" in let cnt := fresh "cnt" in let B := fresh "B" in let R := fresh "R" in
   intros E i cnt ? ? B _ R; cbn in R; replace i with 0%Z by lia; exists t, o, E; split; [exact TY|]; split; [reflexivity|]; split; [exact B|];
   split; [|reflexivity]; rewrite (proj1 B spec) by (cbn [In]; intuition discriminate); reflexivity).

(** Two kinds: it is made in the loop. *)
Local Ltac two S LD m0 x0 m1 x1 :=
  let RD := fresh "RD" in let t := fresh "t" in let o := fresh "o" in let SC := fresh "SC" in let TY := fresh "TY" in
  let RD1 := fresh "RD" in let t1 := fresh "t" in let o1 := fresh "o" in let SC1 := fresh "SC" in let TY1 := fresh "TY" in
  destruct (class_ready _ _ m0 x0 S ltac:(cbn; auto 30) (LD _ (or_introl eq_refl))) as (RD & t & o & SC & TY);
  destruct (class_ready _ _ m1 x1 S ltac:(cbn; auto 30) (LD _ (or_intror (or_introl eq_refl)))) as (RD1 & t1 & o1 & SC1 & TY1);
  unfold run_script, x509dump_py, x509dump_rfc5280_py, crldump_py, pkcs10dump_py, pkcs1dump_py, pkcs8dump_py; repeat match goal with |- context [block _ _ _ _ _ _ (PWhile _ _ :: _) _] => fail 1 | _ => erewrite seq; [|reflexivity] end;
  match goal with |- reported ?W ?p _ _ (observe (block _ ?v _ ?n _ ?E0 (PWhile _ (_ :: _ :: ?ch :: _) :: _) _)) =>
    apply (tail_runs W v n p [ch] "key" "asn1Spec" "cnt" ["idx"; "substrate"; "key"; "rest"; "cnt"; "asn1Spec"] E0)
  end;
  [facts..| |facts|facts|split; facts|facts];
  (let E := fresh "E" in let i := fresh "i" in let cnt := fresh "cnt" in let B := fresh "B" in let R := fresh "R" in let VI := fresh "VI" in
   let sta := fresh "sta" in intros E i cnt ? sta B VI R; cbn in R; assert (Q : i = 0%Z \/ i = 1%Z) by lia; destruct Q; subst i;
   [exists t, o, (put E "asn1Spec" (KObj t o)); split; [exact TY|]; split;
      [cbn [app]; apply seq; rewrite exec_if, (bind_val _ _ _ true _) by (unfold test; cbn [eval]; unfold name; rewrite VI; reflexivity);
       cbv iota; erewrite seq; [reflexivity|]; cbn [exec];
       erewrite bind_val; [reflexivity|apply new_object; [exact RD|exact SC|reflexivity|rewrite (proj1 B m0) by (cbn [In]; intuition discriminate); reflexivity]]|]
   |exists t1, o1, (put E "asn1Spec" (KObj t1 o1)); split; [exact TY1|]; split;
      [cbn [app]; apply seq; rewrite exec_if, (bind_val _ _ _ false _) by (unfold test; cbn [eval]; unfold name; rewrite VI; reflexivity);
       cbv iota; rewrite (seq _ _ _ _ _ _ _ _ _ (put E "asn1Spec" (KObj t1 o1)) sta); [reflexivity|];
       rewrite exec_if, (bind_val _ _ _ true _) by (unfold test; cbn [eval]; unfold name; rewrite VI; reflexivity);
       cbv iota; erewrite seq; [reflexivity|]; cbn [exec];
       erewrite bind_val; [reflexivity|apply new_object; [exact RD1|exact SC1|reflexivity|rewrite (proj1 B m1) by (cbn [In]; intuition discriminate); reflexivity]]|]];
   (split; [apply put_between; [exact B|cbn; auto 10|discriminate]|]; rewrite !var_put; split; reflexivity)).

Theorem pem_source : forall h W src p final a n f d, session h = OK W -> In (src, p, final) pem_scripts ->
  (forall q, In q (pt_blocks p) -> loaded W (fst (snd q)) <> None) ->
  (List.length f < n)%nat -> run_pem W p f = Some d ->
  reported W p final d (observe (run_script W n src [a] f)).
Proof.
  intros h W src p final a n f d S I LD L D.
  destruct I as [I|[I|[I|[I|[I|[I|[]]]]]]]; injection I as <- <- <-.
  - one "cert" "certType" "certCnt" S LD "rfc2459" "Certificate".
  - one "cert" "certType" "certCnt" S LD "rfc5280" "Certificate".
  - one "key" "asn1Spec" "cnt" S LD "rfc2459" "CertificateList".
  - one "cert" "certType" "certCnt" S LD "rfc2314" "CertificationRequest".
  - two S LD "rfc2437" "RSAPrivateKey" "rfc2459" "DSAPrivateKey".
  - two S LD "rfc5208" "PrivateKeyInfo" "rfc5208" "EncryptedPrivateKeyInfo".
Qed.
End codec.
