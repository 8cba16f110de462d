(** C54: the decode calls of the project's own tests, with the assertions made about them.
    The tests are data (Gen/Vectors.v); what a test asserts is spelt out in the statement. *)
From Coq Require Import List String ZArith NArith Bool.
From Verif Require Pem.Base64 Pem.Pem.
From Verif Require Import Py.Syntax Asn1.Types Py.Eval Asn1.Bytes Asn1.Der Asn1.Wf Load.Import Load.Schemas Tools.Programs Tools.TestLang Tools.TestRun Tools.SelfTest Gen.Vectors Gen.TestPrograms.
Import ListNotations.
Open Scope string_scope.

(** C54: every test of /repo/tests that was extracted passes: its text is read as base64, its
    modules load, its type decodes the octets with the options the test gives, leaving nothing
    if the test says so, and encodes to the same octets if the test says so. *)
Theorem C54_tests_pass : forall {Cdc : codec} v, In v vectors ->
  exists s W t o x rest, Pem.readBase64fromText (chars (v_text v)) = Base64.Ok s /\ session (v_imports v) = OK W /\
    schema W (v_module v) (v_type v) = Some (t, o) /\ call W v t s = Ok (x, rest) /\
    (v_norest v = true -> rest = []) /\ (v_recode v = true -> encode t x = Ok s).
Proof. intro Cdc. exact all_pass_spelt. Qed.
Print Assumptions C54_tests_pass.

Example C54_ex : List.length vectors = 264%nat /\ List.length (filter v_open vectors) = 94%nat /\
  List.length (filter v_norest vectors) = 263%nat /\ List.length (filter v_recode vectors) = 261%nat.
Proof. repeat split; vm_compute; reflexivity. Qed.

(** C63: the test methods of /repo/tests pass as programs.  Each is translated statement by
    statement (Gen/TestPrograms.v) and run in a fresh interpreter that has imported the modules
    its file imports; it ends without exception, and every assertion it comes to holds. *)
Theorem C63_test_methods_pass : forall {Cdc : codec} p, In p programs -> exists n, run p = OK n /\ (0 < n)%N.
Proof. intro Cdc. exact all_run. Qed.
Print Assumptions C63_test_methods_pass.

(** Together they make 2872 assertions. *)
Theorem C63_assertions : forall {Cdc : codec},
  total (fun p => match run p with OK n => Some n | _ => None end) programs = Some 2872%N.
Proof. intro Cdc. exact all_assertions. Qed.
Print Assumptions C63_assertions.

(** 273 of the 282 test methods.  The first program below passes with three
    assertions; the second does not pass. *)
Example C63_ex : forall {Cdc : codec}, List.length programs = 273%nat /\
  run_in (OK empty) (mkP "assertions" [] [TSet "b" (XDo "base64" (XText "BAIBAg==")); TAssert (XVar "b");
    TAssert (XOp "==" (XDo "len" (XVar "b")) (XInt 4)); TAssert (XNot (XOp "in" (XInt 3) (XList [XInt 1; XInt 2])))]) = OK 3%N /\
  run_in (OK empty) (mkP "assertions" [] [TAssert (XOp "==" (XDo "ints2octs" (XList [XInt 1])) (XDo "base64" (XText "Ag==")))]) = Raise "AssertionError".
Proof. intro Cdc. split; [vm_compute; reflexivity|]. split; vm_compute; reflexivity. Qed.
