(** Running tools/ocspclient.py from its source (Gen/ScriptOcsp.v).

    The objects it reads are values with their types; building the request (setComponentByName)
    and the HTTP connection are outside this interpreter, and the program does not get there.
    What ends outside the model ends in [Unknown]. *)
From Coq Require Import List String ZArith NArith Bool Lia.
From Verif Require Pem.Text Pem.Base64 Pem.Pem.
From Verif Require Import Py.Syntax Asn1.Types Py.Eval Asn1.Bytes Asn1.EqbFacts Asn1.Der Load.Import Load.Computed Load.Schemas
  Load.Checked Load.CheckedFacts Spec.Facts Tools.Layers Tools.Programs Tools.Ocsp Tools.OcspAnswer.
From Verif Require Tools.ScriptLang Tools.ScriptTop Gen.ScriptOcsp.
Import ListNotations.
Import Tools.ScriptLang Tools.ScriptTop Gen.ScriptOcsp.
Open Scope string_scope.
Open Scope list_scope.
Opaque T session.

Section codec.
Context {Cdc : codec}.

(** ** Values and states *)

(** [OName p]: what the dotted name [p] refers to.  [OFun f], [OClass c], [OInst c]: a function,
    a class of the program, an instance.  [OObj t v]: an object of type [t] ([None]: without a
    value).  [OSha d]: a hash object with the digest [d].  [OFormat f x]: f % x. *)
Inductive ov :=
| ONone | OBool (b : bool) | ONum (z : Z) | OStr (s : string) | OText (s : Text.text) | OOctets (b : bytes) | OTuple (l : list ov)
| OName (p : string) | OFun (f : string) | OClass (c : string) | OInst (c : string) | OObj (t : asn1) (v : option aval)
| OOid (l : list ov) | OSha (d : bytes) | OFile | OFormat (f : string) (x : ov).

(** The globals, the locals inside a function, what is left of sys.stdin, what was printed. *)
Record st := mkSt { globals : list (string * ov); locals : option (list (string * ov)); stdin : Text.text; said : list ov }.
Inductive oout (A : Type) := Goes (a : A) (s : st) | Dies (e : string) (s : st) | Exits (z : Z) (s : st) | Unknown.
Arguments Goes {A}. Arguments Dies {A}. Arguments Exits {A}. Arguments Unknown {A}.
Definition O_ (A : Type) := st -> oout A.
Definition gives {A} (a : A) : O_ A := fun s => Goes a s.
Definition unknown {A} : O_ A := fun _ => Unknown.
Definition dies {A} (e : string) : O_ A := fun s => Dies e s.
Definition andthen {A B} (x : O_ A) (k : A -> O_ B) : O_ B := fun s =>
  match x s with
  | Goes a s' => k a s'
  | Dies e s' => Dies e s'
  | Exits z s' => Exits z s'
  | Unknown => Unknown
  end.
Notation "'let+' x := e 'in' k" := (andthen e (fun x => k)) (at level 200, x pattern, right associativity).
Definition of_res {A} (x : res A) : O_ A := match x with Ok a => gives a | Unm => unknown | _ => dies "PyAsn1Error" end.

Fixpoint look {A} (l : list (string * A)) (x : string) : option A :=
  match l with
  | [] => None
  | (y, v) :: l' => if String.eqb x y then Some v else look l' x
  end.
(** The functions and classes of a program. *)
Fixpoint function (prog : list top) (f : string) : option (list (string * option px) * list ps) :=
  match prog with
  | [] => None
  | TStmt (PDef g ps None b) :: prog' => if String.eqb f g then Some (ps, b) else function prog' f
  | _ :: prog' => function prog' f
  end.
Fixpoint class (prog : list top) (c : string) : list ps :=
  match prog with
  | [] => []
  | TClass d _ b :: prog' => if String.eqb c d then b else class prog' c
  | _ :: prog' => class prog' c
  end.
(** A method of a class: parameters, body. *)
Fixpoint method_of (b : list ps) (f : string) : option (list (string * option px) * list ps) :=
  match b with
  | [] => None
  | PDef g ps _ d :: b' => if String.eqb f g then Some (ps, d) else method_of b' f
  | _ :: b' => method_of b' f
  end.

Section run.
  (** The modules loaded, hashlib.sha1, the arguments, the program; whether
      pyasn1.codec.cer.encoder has a BitStringEncoder (that of pyasn1 0.1 has; the versions
      differ). *)
  Variables (W : world) (sha1 : bytes -> bytes) (argv : list Text.text) (prog : list top) (cer_bits : bool).

  (** ** Calls *)

  (** getComponentByName.  A component of an object without a value is one without a value. *)
  Definition get_member (t : asn1) (v : option aval) (n : string) : O_ ov :=
    match v, component_type t n with
    | Some w, Some t' => match component t w n with Some o => gives (OObj t' o) | None => unknown end
    | None, Some t' => gives (OObj t' None)
    | _, None => unknown
    end.
  (** getComponentByPosition: the element after the last is made up. *)
  Definition get_element (t : asn1) (v : option aval) (i : Z) : O_ ov :=
    match t, v with
    | TOf _ _ (Some te), Some (VList l) =>
        if Z.ltb i 0 then unknown
        else match nth_error l (Z.to_nat i) with
             | Some w => gives (OObj te (Some w))
             | None => if Nat.eqb (Z.to_nat i) (List.length l) then gives (OObj te None) else unknown
             end
    | _, _ => unknown
    end.
  Definition get_name (t : asn1) (v : option aval) : O_ ov :=
    match v with
    | None => dies "PyAsn1Error"
    | Some w => match chosen_name t w with Some n => gives (OStr n) | None => unknown end
    end.
  Definition encoded (t : asn1) (v : option aval) : O_ ov :=
    match v with Some w => let+ b := of_res (encode t w) in gives (OOctets b) | None => unknown end.
  (** decode of octets, or of an OCTET STRING object. *)
  Definition decoded (x : ov) (t : asn1) : O_ ov :=
    match x with
    | OOctets b | OObj _ (Some (VOcts b)) => let+ p := of_res (decode t b) in gives (OTuple [OObj t (Some (fst p)); OOctets (snd p)])
    | _ => unknown
    end.
  (** pem.readPemBlocksFromFile(sys.stdin, (a, b)), as in C65.  The text '' it returns without a
      block is decoded like no octets. *)
  Definition read_pem (a b : string) : O_ ov := fun s =>
    match Pem.readPemBlocksFromFile [(chars a, chars b)] (stdin s) with
    | (Base64.Ok (i, x), f) => Goes (OTuple [ONum i; OOctets (Pem.octets x)]) (mkSt (globals s) (locals s) f (said s))
    | (Base64.Err _, f) => Dies "Error" (mkSt (globals s) (locals s) f (said s))
    end.
  Definition package (p : string) : option string :=
    if String.eqb p "pyasn1_modules.rfc2560" then Some "rfc2560" else if String.eqb p "pyasn1_modules.rfc2459" then Some "rfc2459" else None.
  (** A class of a module called, without arguments or (ENUMERATED) with the name of a value. *)
  Definition make (m x : string) : O_ ov := match schema W m x with Some (t, dv) => gives (OObj t dv) | None => unknown end.
  Definition make_named (m x n : string) : O_ ov :=
    match schema W m x with
    | Some (TPrim KEnum mt, _) => match look (nvals mt) n with Some z => gives (OObj (TPrim KEnum mt) (Some (VInt z))) | None => unknown end
    | _ => unknown
    end.
  (** AbstractItemEncoder.encode of an instance passes the keywords on to its encodeValue.  No
      function of the program has a parameter for keywords ([PDef] has none). *)
  Definition item_encode (c : string) (kw : list (string * ov)) : O_ ov :=
    match method_of (class prog c) "encodeValue", kw with
    | Some _, _ :: _ => dies "TypeError"
    | _, _ => unknown
    end.
  Definition method (o : ov) (a : string) (args : list ov) (kw : list (string * ov)) : O_ ov :=
    match o, args, kw with
    | OObj t v, [OStr n], [] => if String.eqb a "getComponentByName" then get_member t v n else unknown
    | OObj t v, [ONum i], [] => if String.eqb a "getComponentByPosition" then get_element t v i else unknown
    | OObj t v, [], [] => if String.eqb a "getName" then get_name t v else unknown
    | OSha d, [], [] => if String.eqb a "digest" then gives (OOctets d) else unknown
    | OName p, [OOctets b], [] => if String.eqb p "hashlib" && String.eqb a "sha1" then gives (OSha (sha1 b)) else unknown
    | OName p, [OObj t v], [] => if String.eqb p "pyasn1.codec.der.encoder" && String.eqb a "encode" then encoded t v else unknown
    | OName p, [x], [(k, OObj t _)] =>
        if String.eqb p "pyasn1.codec.der.decoder" && String.eqb a "decode" && String.eqb k "asn1Spec" then decoded x t else unknown
    | OName p, [OFile; OTuple [OStr b; OStr e]], [] =>
        if String.eqb p "pyasn1_modules.pem" && String.eqb a "readPemBlocksFromFile" then read_pem b e else unknown
    | OName p, [], [] => match package p with Some m => make m a | None => unknown end
    | OName p, [OStr n], [] => match package p with Some m => make_named m a n | None => unknown end
    | OName p, [OTuple l], [] => if String.eqb p "pyasn1.type.univ" && String.eqb a "ObjectIdentifier" then gives (OOid l) else unknown
    | OName p, [ONum z], [] => if String.eqb p "sys" && String.eqb a "exit" then fun s => Exits z s else unknown
    | OInst c, _, _ => if String.eqb a "encode" then item_encode c kw else unknown
    | _, _, _ => unknown
    end.
  Definition attribute (o : ov) (a : string) : O_ ov :=
    match o with
    | OName p =>
        let q := (p ++ "." ++ a)%string in
        if String.eqb q "sys.argv" then gives (OTuple (map OText argv))
        else if String.eqb q "sys.stdin" then gives OFile
        else match package p with
             | Some m => make m a
             | None => gives (OName q)
             end
    | _ => unknown
    end.
  (** a == b.  Comparing an object without a value raises. *)
  Definition equal (a b : ov) : O_ bool :=
    match a, b with
    | ONum x, ONum y => gives (Z.eqb x y)
    | OObj _ (Some x), OObj _ (Some y) => gives (aval_eqb x y)
    | OObj _ None, OObj _ _ => dies "PyAsn1Error"
    | _, _ => unknown
    end.
  Definition builtin (f : string) (args : list ov) : O_ ov :=
    match args with
    | [x] =>
        if String.eqb f "print" then fun s => Goes ONone (mkSt (globals s) (locals s) (stdin s) (said s ++ [x]))
        else if String.eqb f "len" then match x with OTuple l => gives (ONum (Z.of_nat (List.length l))) | _ => unknown end
        else unknown
    | _ => unknown
    end.
  Definition name (s : st) (x : string) : option ov :=
    match locals s with
    | Some l => match look l x with Some v => Some v | None => look (globals s) x end
    | None => look (globals s) x
    end.

  (** ** Expressions and statements *)

  Section frame.
    (** Calling a function with parameters and a body. *)
    Variable call : list (string * option px) * list ps -> list ov -> O_ ov.
    Definition apply (f : ov) (args : list ov) : O_ ov :=
      match f, args with
      | OFun g, _ => match function prog g with Some d => call d args | None => unknown end
      | OClass c, [] => gives (OInst c)
      | OInst c, _ => match method_of (class prog c) "__call__" with Some d => call d (f :: args) | None => unknown end
      | _, _ => unknown
      end.
    Fixpoint value (e : px) : O_ ov :=
      let fix values (l : list px) : O_ (list ov) :=
        match l with
        | [] => gives []
        | e' :: l' => let+ v := value e' in let+ vs := values l' in gives (v :: vs)
        end in
      let fix keywords (l : list (string * px)) : O_ (list (string * ov)) :=
        match l with
        | [] => gives []
        | (k, e') :: l' => let+ v := value e' in let+ vs := keywords l' in gives ((k, v) :: vs)
        end in
      match e with
      | XName x => fun s => match name s x with Some v => Goes v s | None => Dies "NameError" s end
      | XInt z => gives (ONum z)
      | XStr s => gives (OStr s)
      | XNone => gives ONone
      | XTrue => gives (OBool true)
      | XTuple l => let+ vs := values l in gives (OTuple vs)
      | XNeg e' => let+ v := value e' in match v with ONum z => gives (ONum (- z)) | _ => unknown end
      | XAttr e' a => let+ v := value e' in attribute v a
      | XSub e' i =>
          let+ v := value e' in let+ j := value i in
          match v, j with
          | OTuple l, ONum z => if Z.ltb z 0 then unknown else match nth_error l (Z.to_nat z) with Some x => gives x | None => dies "IndexError" end
          | _, _ => unknown
          end
      | XMod (XStr f) e' => let+ v := value e' in gives (OFormat f v)
      | XCmp o a b =>
          let+ x := value a in let+ y := value b in
          let+ c := equal x y in
          if String.eqb o "!=" then gives (OBool (negb c)) else if String.eqb o "==" then gives (OBool c) else unknown
      | XCall (XAttr e' a) args kw => let+ o := value e' in let+ vs := values args in let+ ks := keywords kw in method o a vs ks
      | XCall (XName f) args [] => fun s =>
          match name s f with
          | None => (let+ vs := values args in builtin f vs) s
          | Some g => (let+ vs := values args in apply g vs) s
          end
      | _ => unknown
      end.
    Definition bind_name (x : string) (v : ov) : O_ unit := fun s =>
      match locals s with
      | Some l => Goes tt (mkSt (globals s) (Some ((x, v) :: l)) (stdin s) (said s))
      | None => Goes tt (mkSt ((x, v) :: globals s) None (stdin s) (said s))
      end.
    Fixpoint bind_names (xs : list string) (vs : list ov) : O_ unit :=
      match xs, vs with
      | [], [] => gives tt
      | x :: xs', v :: vs' => let+ _ := bind_name x v in bind_names xs' vs'
      | _, _ => unknown
      end.
    (** [Some v]: return v. *)
    Fixpoint exec (p : ps) : O_ (option ov) :=
      let fix execs (l : list ps) : O_ (option ov) :=
        match l with
        | [] => gives None
        | p' :: l' => let+ r := exec p' in match r with Some v => gives (Some v) | None => execs l' end
        end in
      match p with
      | PImport m => let+ _ := bind_name m (OName m) in gives None
      | PFrom m ns => let+ _ := bind_names ns (map (fun n => OName (m ++ "." ++ n)%string) ns) in gives None
      | PAssign [x] e => let+ v := value e in let+ _ := bind_name x v in gives None
      | PAssign xs e => let+ v := value e in match v with OTuple vs => let+ _ := bind_names xs vs in gives None | _ => unknown end
      | PExpr e => let+ _ := value e in gives None
      | PAssert e => let+ v := value e in match v with OBool true => gives None | OBool false => dies "AssertionError" | _ => unknown end
      | PIf c a b => let+ v := value c in match v with OBool true => execs a | OBool false => execs b | _ => unknown end
      | PReturn e => let+ v := value e in gives (Some v)
      | PDef f _ _ _ => let+ _ := bind_name f (OFun f) in gives None
      | _ => unknown
      end.
    Fixpoint block (l : list ps) : O_ (option ov) :=
      match l with
      | [] => gives None
      | p :: l' => let+ r := exec p in match r with Some v => gives (Some v) | None => block l' end
      end.
  End frame.
  (** A call: parameters bound, body, locals of the caller again.  Calls nest [n] deep. *)
  Fixpoint call (n : nat) (d : list (string * option px) * list ps) (args : list ov) : O_ ov :=
    match n with
    | O => unknown
    | S n' => fun s =>
        if Nat.eqb (List.length (fst d)) (List.length args) then
          match block (call n') (snd d) (mkSt (globals s) (Some (combine (map fst (fst d)) args)) (stdin s) (said s)) with
          | Goes r s' => Goes (match r with Some v => v | None => ONone end) (mkSt (globals s') (locals s) (stdin s') (said s'))
          | Dies e s' => Dies e s'
          | Exits z s' => Exits z s'
          | Unknown => Unknown
          end
        else Dies "TypeError" s
    end.
  Definition exec_top (p : top) : O_ (option ov) :=
    match p with
    | TStmt p => exec (call 3) p
    | TClass c b _ => let+ v := value (call 3) b in
        match v with
        | OName q =>
            if String.eqb q "pyasn1.codec.der.encoder.encoder.BitStringEncoder" then
              if cer_bits then let+ _ := bind_name c (OClass c) in gives None else dies "AttributeError"
            else unknown
        | _ => unknown
        end
    | TImport _ _ x => let+ _ := bind_name x (OName x) in gives None
    end.
  Fixpoint program (l : list top) : O_ unit :=
    match l with
    | [] => gives tt
    | p :: l' => let+ _ := exec_top p in program l'
    end.
End run.

Lemma goes : forall W sha1 argv prog cb p l s s', exec_top W sha1 argv prog cb p s = Goes None s' ->
  program W sha1 argv prog cb (p :: l) s = program W sha1 argv prog cb l s'.
Proof. intros. cbn [program]. unfold andthen. rewrite H. reflexivity. Qed.
Lemma dies_here : forall W sha1 argv prog cb p l s e s', exec_top W sha1 argv prog cb p s = Dies e s' -> program W sha1 argv prog cb (p :: l) s = Dies e s'.
Proof. intros. cbn [program]. unfold andthen. rewrite H. reflexivity. Qed.
Lemma block_goes : forall W sha1 argv prog c p l s s', exec W sha1 argv prog c p s = Goes None s' ->
  block W sha1 argv prog c (p :: l) s = block W sha1 argv prog c l s'.
Proof. intros. cbn [block]. unfold andthen. rewrite H. reflexivity. Qed.
Lemma block_dies : forall W sha1 argv prog c p l s e s', exec W sha1 argv prog c p s = Dies e s' ->
  block W sha1 argv prog c (p :: l) s = Dies e s'.
Proof. intros. cbn [block]. unfold andthen. rewrite H. reflexivity. Qed.
Lemma get_sub : forall t v n t' w s, sub t v n = Some (t', w) -> get_member t (Some v) n s = Goes (OObj t' (Some w)) s.
Proof.
  intros t v n t' w s H. unfold sub in H. unfold get_member. destruct (component_type t n) as [u|]; [|discriminate H].
  destruct (component t v n) as [[x|]|]; try discriminate H. injection H as <- <-. reflexivity.
Qed.
Lemma at_two : forall t v a b t' w, at_path t v [a; b] = Some (t', w) -> exists t1 w1, sub t v a = Some (t1, w1) /\ sub t1 w1 b = Some (t', w).
Proof.
  intros t v a b t' w H. unfold at_path in H. cbn [fold_left] in H. destruct (sub t v a) as [[t1 w1]|]; [|discriminate H]. exists t1, w1. split; [reflexivity|exact H].
Qed.
Lemma at_three : forall t v a b c t' w, at_path t v [a; b; c] = Some (t', w) ->
  exists t1 w1 t2 w2, sub t v a = Some (t1, w1) /\ sub t1 w1 b = Some (t2, w2) /\ sub t2 w2 c = Some (t', w).
Proof.
  intros t v a b c t' w H. unfold at_path in H. cbn [fold_left] in H. destruct (sub t v a) as [[t1 w1]|]; [|discriminate H].
  destruct (sub t1 w1 b) as [[t2 w2]|] eqn:E2; [|discriminate H]. exists t1, w1, t2, w2. repeat split; assumption.
Qed.

Lemma call_dies : forall W sha1 argv prog n d args s e s', Nat.eqb (List.length (fst d)) (List.length args) = true ->
  block W sha1 argv prog (call W sha1 argv prog n) (snd d) (mkSt (globals s) (Some (combine (map fst (fst d)) args)) (stdin s) (said s)) = Dies e s' ->
  call W sha1 argv prog (S n) d args s = Dies e s'.
Proof. intros W sha1 argv prog n d args s e s' A B. cbn [call]. rewrite A, B. reflexivity. Qed.
Lemma call_goes : forall W sha1 argv prog n d args s v s', Nat.eqb (List.length (fst d)) (List.length args) = true ->
  block W sha1 argv prog (call W sha1 argv prog n) (snd d) (mkSt (globals s) (Some (combine (map fst (fst d)) args)) (stdin s) (said s)) = Goes (Some v) s' ->
  call W sha1 argv prog (S n) d args s = Goes v (mkSt (globals s') (locals s) (stdin s') (said s')).
Proof. intros W sha1 argv prog n d args s v s' A B. cbn [call]. rewrite A, B. reflexivity. Qed.

(** ** Without cer.encoder.BitStringEncoder *)

Lemma no_base : forall W sha1 argv f, exists g, program W sha1 argv ocspclient_py false ocspclient_py (mkSt [] None f []) = Dies "AttributeError" (mkSt g None f []).
Proof.
  intros W sha1 argv f. eexists. unfold ocspclient_py at 2. do 10 (erewrite goes; [|vm_compute; reflexivity]).
  erewrite dies_here; [reflexivity|vm_compute; reflexivity].
Qed.

(** ** With it *)

Ltac norm := lazy -[read_pem make make_named decoded get_member get_element get_name equal encoded item_encode call block chars Pem.octets].
Lemma read_pem_is : forall f g l sd, read_pem "-----BEGIN CERTIFICATE-----" "-----END CERTIFICATE-----" (mkSt g l f sd) =
  match Pem.readPemBlocksFromFile ocsp_markers f with
  | (Base64.Ok (i, x), f') => Goes (OTuple [ONum i; OOctets (Pem.octets x)]) (mkSt g l f' sd)
  | (Base64.Err _, f') => Dies "Error" (mkSt g l f' sd)
  end.
Proof. reflexivity. Qed.
Lemma decoded_is : forall t b s, decoded (OOctets b) t s =
  match decode t b with
  | Ok p => Goes (OTuple [OObj t (Some (fst p)); OOctets (snd p)]) s
  | Unm => Unknown
  | _ => Dies "PyAsn1Error" s
  end.
Proof. intros t b s. unfold decoded, of_res, andthen. destruct (decode t b); reflexivity. Qed.
Lemma equal_is : forall t v t' w s, equal (OObj t (Some v)) (OObj t' (Some w)) s = Goes (aval_eqb v w) s.
Proof. reflexivity. Qed.
Lemma encoded_is : forall t v s, encoded t (Some v) s = match encode t v with Ok b => Goes (OOctets b) s | Unm => Unknown | _ => Dies "PyAsn1Error" s end.
Proof. intros t v s. unfold encoded, of_res, andthen. destruct (encode t v); reflexivity. Qed.

Theorem request_source : forall W sha1 prog url f,
  match ocspclient sha1 value_only W f with
  | Died e => exists s, program W sha1 [prog; url] ocspclient_py true ocspclient_py (mkSt [] None f []) = Dies e s /\ said s = []
  | Posted _ => False
  | Unmodelled => True
  end.
Proof.
  intros W sha1 prog url f. unfold ocspclient, type_of. destruct (schema W "rfc2459" "Certificate") as [[t dv]|] eqn:HS; [|exact I].
  cbn [option_map fst]. destruct (option_map fst (schema W "rfc2560" "OCSPRequest")) as [tr|]; [|exact I].
  assert (HM : forall s, make W "rfc2459" "Certificate" s = Goes (OObj t dv) s) by (intro s; unfold make; rewrite HS; reflexivity).
  set (P := program _ _ _ _ _ _ _). assert (R : exists q, q = P) by (eexists; reflexivity). destruct R as [q R]. rewrite <- R. unfold P in R. clear P.
  unfold ocspclient_py at 2 in R. do 15 (erewrite goes in R; [|vm_compute; reflexivity]).
  unfold next_certificate. destruct (Pem.readPemBlocksFromFile ocsp_markers f) as [[[i x]|e] f'] eqn:HP.
  2: { erewrite dies_here in R; [|norm; rewrite read_pem_is, HP; reflexivity]. eexists. split; [exact R|reflexivity]. }
  destruct (decode t (Pem.octets x)) as [[issuer r]| | |] eqn:HD; cbn [raised]; [| | |exact I].
  2-3: erewrite dies_here in R; [|norm; rewrite read_pem_is, HP; norm; rewrite HM; norm; rewrite decoded_is, HD; reflexivity]; eexists; split; [exact R|reflexivity].
  erewrite goes in R; [|norm; rewrite read_pem_is, HP; norm; rewrite HM; norm; rewrite decoded_is, HD; norm; reflexivity].
  cbn [fst]. clear HP HD. rename f' into f1. rename x into x0. rename i into i0.
  destruct (Pem.readPemBlocksFromFile ocsp_markers f1) as [[[i x]|e] f'] eqn:HP.
  2: { erewrite dies_here in R; [|norm; rewrite read_pem_is, HP; reflexivity]. eexists. split; [exact R|reflexivity]. }
  destruct (decode t (Pem.octets x)) as [[user r']| | |] eqn:HD; cbn [raised]; [| | |exact I].
  2-3: erewrite dies_here in R; [|norm; rewrite read_pem_is, HP; norm; rewrite HM; norm; rewrite decoded_is, HD; reflexivity]; eexists; split; [exact R|reflexivity].
  erewrite goes in R; [|norm; rewrite read_pem_is, HP; norm; rewrite HM; norm; rewrite decoded_is, HD; norm; reflexivity].
  cbn [fst]. clear HP HD. unfold post_request.
  destruct (at_path t issuer ["tbsCertificate"; "subject"]) as [[t1 subject]|] eqn:P1; [|exact I].
  destruct (at_path t user ["tbsCertificate"; "issuer"]) as [[tn nm]|] eqn:P2; [|exact I].
  destruct (at_path t issuer ["tbsCertificate"; "subjectPublicKeyInfo"; "subjectPublicKey"]) as [[t3 key]|] eqn:P3; [|exact I].
  destruct key; try exact I.
  destruct (at_path t user ["tbsCertificate"; "serialNumber"]) as [[t4 serial]|] eqn:P4; [|exact I].
  destruct serial; try exact I.
  apply at_two in P1. destruct P1 as (ti & wi & P1a & P1b). apply at_two in P2. destruct P2 as (tu & wu & P2a & P2b).
  apply at_three in P3. destruct P3 as (ti' & wi' & tk & wk & P3a & P3b & P3c). rewrite P1a in P3a. injection P3a as <- <-.
  Ltac a_get H := norm; rewrite (get_sub _ _ _ _ _ _ H); norm; reflexivity.
  destruct (aval_eqb subject nm) eqn:EQ.
  2: { erewrite dies_here in R.
       2: { norm. erewrite call_dies; [reflexivity|reflexivity|]. cbn [snd fst map combine globals stdin said].
            erewrite block_goes; [|a_get P1a]. erewrite block_goes; [|a_get P1b]. erewrite block_goes; [|a_get P2a]. erewrite block_goes; [|a_get P2b].
            erewrite block_dies; [reflexivity|norm; rewrite equal_is, EQ; norm; reflexivity]. }
       eexists. split; [exact R|reflexivity]. }
  destruct (encode tn nm) as [nb| | |] eqn:HE; cbn [raised]; [| | |exact I].
  2-3: erewrite dies_here in R; [|norm; erewrite call_dies; [reflexivity|reflexivity|]; cbn [snd fst map combine globals stdin said];
            (erewrite block_goes; [|a_get P1a]); (erewrite block_goes; [|a_get P1b]); (erewrite block_goes; [|a_get P2a]); (erewrite block_goes; [|a_get P2b]);
            (erewrite block_goes; [|norm; rewrite equal_is, EQ; norm; reflexivity]);
            erewrite block_dies; [reflexivity|norm; rewrite encoded_is, HE; norm; reflexivity]]; eexists; split; [exact R|reflexivity].
  rewrite value_only_raises.
  erewrite dies_here in R.
  2: { norm. erewrite call_dies; [reflexivity|reflexivity|]. cbn [snd fst map combine globals stdin said].
       erewrite block_goes; [|a_get P1a]. erewrite block_goes; [|a_get P1b]. erewrite block_goes; [|a_get P2a]. erewrite block_goes; [|a_get P2b].
       erewrite block_goes; [|norm; rewrite equal_is, EQ; norm; reflexivity].
       erewrite block_goes; [|norm; rewrite encoded_is, HE; norm; reflexivity].
       erewrite block_goes; [|norm; rewrite (get_sub _ _ _ _ _ _ P3b); norm; rewrite (get_sub _ _ _ _ _ _ P3c); norm; reflexivity].
       erewrite block_dies; [reflexivity|].
       norm. erewrite call_dies; [reflexivity|reflexivity|]. cbn [snd fst map combine globals stdin said].
       erewrite block_dies; [reflexivity|vm_compute; reflexivity]. }
  eexists. split; [exact R|reflexivity].
Qed.
End codec.
Arguments Goes {A}. Arguments Dies {A}. Arguments Exits {A}. Arguments Unknown {A}.
