(** Running tools/snmpget.py from its source (Gen/ScriptSnmp.v).

    It changes objects in place, which the dump tools do not, so it has an interpreter of its
    own: the one Message object it makes is the state, and a variable holding a part of it
    holds the path to the part (Tools/Objects.v).  The codec is that of Tools/Snmp.v and
    Tools/SnmpAnswer.v.  The text that prettyPrint() returns is not computed; what is printed
    is the value shown.  A program that goes outside the model ends in [Unknown]. *)
From Coq Require Import List String ZArith NArith Bool Lia.
From Verif Require Import Py.Syntax Asn1.Types Py.Eval Asn1.Bytes Asn1.Der Load.Import Load.Computed Load.Schemas
  Tools.Objects Tools.Snmp Tools.SnmpAnswer Gen.ScriptSnmp.
From Verif Require Tools.ScriptLang.
Import ListNotations.
Import Tools.ScriptLang.
Open Scope string_scope.
Open Scope list_scope.
Opaque T session.

(** ** Values and states *)

(** [WName p]: what the dotted name [p] refers to.  [WPart p]: the part at the path [p] of the
    object made.  [WValue v]: an object the decoder returned.  [WShown v]: what prettyPrint()
    returns for the value [v].  [WFormat f x]: f % x.  [WAddress]: the sender of a datagram. *)
Inductive wv :=
| WName (p : string) | WNum (z : Z) | WText (s : list N) | WOctets (b : bytes) | WTuple (l : list wv)
| WPart (p : list nat) | WValue (v : aval) | WShown (v : aval) | WFormat (f : string) (x : wv)
| WBool (b : bool) | WSocket | WAddress | WNone.

(** The variables, the object made, the datagrams sent (octets, host, port), what was printed. *)
Record st := mkSt { vars : list (string * wv); made : option (asn1 * obj); sent : list (bytes * (list N * Z)); said : list wv }.
Inductive wout (A : Type) := Goes (a : A) (s : st) | Dies (e : string) (s : st) | Exits (z : Z) (s : st) | Unknown.
Arguments Goes {A}. Arguments Dies {A}. Arguments Exits {A}. Arguments Unknown {A}.
Definition W_ (A : Type) := st -> wout A.
Definition gives {A} (a : A) : W_ A := fun s => Goes a s.
Definition unknown {A} : W_ A := fun _ => Unknown.
Definition dies {A} (e : string) : W_ A := fun s => Dies e s.
Definition andthen {A B} (x : W_ A) (k : A -> W_ B) : W_ B := fun s =>
  match x s with
  | Goes a s' => k a s'
  | Dies e s' => Dies e s'
  | Exits z s' => Exits z s'
  | Unknown => Unknown
  end.
Notation "'let+' x := e 'in' k" := (andthen e (fun x => k)) (at level 200, x pattern, right associativity).

(** The part at a path is there. *)
Fixpoint there (p : list nat) (o : obj) : bool :=
  match p with
  | [] => true
  | j :: p' =>
      match o with
      | Fields _ sl => match nth_error sl j with Some (Some c) => there p' c | _ => false end
      | Chosen _ (Some (j', c)) => Nat.eqb j j' && there p' c
      | Elements _ xs => match nth_error xs j with Some c => there p' c | None => false end
      | _ => false
      end
  end.

Section run.
  (** The modules loaded, the arguments, the datagram that comes back. *)
  Variables (W : world) (argv : list (list N)) (reply : bytes).

  (** ** Calls *)

  (** setComponentByPosition changes the object and returns it. *)
  Definition set_part (p : list nat) (i : Z) (a : option arg) : W_ wv := fun s =>
    match made s with
    | Some (t, o) =>
        if Z.leb 0 i then
          match set_at p (Z.to_nat i) a o with
          | OK o' => Goes (WPart p) (mkSt (vars s) (Some (t, o')) (sent s) (said s))
          | Raise e => Dies e s
          | Stuck _ => Unknown
          end
        else Unknown
    | None => Unknown
    end.
  (** getComponentByPosition, of a component that was set. *)
  Definition get_part (p : list nat) (i : Z) : W_ wv := fun s =>
    match made s with
    | Some (_, o) => if Z.leb 0 i && there (p ++ [Z.to_nat i]) o then Goes (WPart (p ++ [Z.to_nat i])) s else Unknown
    | None => Unknown
    end.
  (** A class of rfc1157 called.  One object is made. *)
  Definition make (x : string) : W_ wv := fun s =>
    match made s, schema W "rfc1157" x with
    | None, Some (t, dv) => Goes (WPart []) (mkSt (vars s) (Some (t, fresh t dv)) (sent s) (said s))
    | _, _ => Unknown
    end.
  (** prettyPrint() and encode() of the whole object. *)
  Definition show : W_ wv := fun s =>
    match made s with
    | Some (_, o) => match filled o with Some v => Goes (WShown v) s | None => Unknown end
    | None => Unknown
    end.
  Definition encoded : W_ wv := fun s =>
    match made s with
    | Some (t, o) =>
        match filled o with
        | Some v => match ber_encode t v with Ok b => Goes (WOctets b) s | Unm => Unknown | _ => Dies "PyAsn1Error" s end
        | None => Unknown
        end
    | None => Unknown
    end.
  (** decoder.decode(b, asn1Spec=msg) *)
  Definition decoded (b : bytes) : W_ wv := fun s =>
    match made s with
    | Some (t, _) =>
        match ber_decode t b with
        | Ok (v, rest) => Goes (WTuple [WValue v; WOctets rest]) s
        | Unm => Unknown
        | _ => Dies "PyAsn1Error" s
        end
    | None => Unknown
    end.
  Definition send (b : bytes) (host : list N) (port : Z) : W_ wv := fun s =>
    Goes (WNum (Z.of_nat (List.length b))) (mkSt (vars s) (made s) (sent s ++ [(b, (host, port))]) (said s)).
  (** recvfrom drops what a datagram has beyond the size given.  The datagram answers one sent. *)
  Definition receive (n : Z) : W_ wv := fun s =>
    match sent s with
    | [] => Unknown
    | _ => if Z.leb 0 n then Goes (WTuple [WOctets (firstn (Z.to_nat n) reply); WAddress]) s else Unknown
    end.
  Definition say (x : wv) : W_ wv := fun s => Goes WNone (mkSt (vars s) (made s) (sent s) (said s ++ [x])).

  (** o.a(args, kw) *)
  Definition method (o : wv) (a : string) (args : list wv) (kw : list (string * wv)) : W_ wv :=
    match o, args, kw with
    | WPart p, [WNum i], [] =>
        if String.eqb a "setComponentByPosition" then set_part p i None
        else if String.eqb a "getComponentByPosition" then get_part p i else unknown
    | WPart p, [WNum i; WNum z], [] => if String.eqb a "setComponentByPosition" then set_part p i (Some (Num z)) else unknown
    | WPart p, [WNum i; WText t], [] => if String.eqb a "setComponentByPosition" then set_part p i (Some (Txt t)) else unknown
    | WPart [], [], [] => if String.eqb a "prettyPrint" then show else unknown
    | WValue v, [], [] => if String.eqb a "prettyPrint" then gives (WShown v) else unknown
    | WName m, [], [] => if String.eqb m "pyasn1_modules.rfc1157" then make a else unknown
    | WName m, [WPart []], [] => if String.eqb m "pyasn1.codec.ber.encoder" && String.eqb a "encode" then encoded else unknown
    | WName m, [WOctets b], [(k, WPart [])] =>
        if String.eqb m "pyasn1.codec.ber.decoder" && String.eqb a "decode" && String.eqb k "asn1Spec" then decoded b else unknown
    | WName m, [WName f; WName t], [] =>
        if String.eqb m "socket" && String.eqb a "socket" && String.eqb f "socket.AF_INET" && String.eqb t "socket.SOCK_DGRAM"
        then gives WSocket else unknown
    | WName m, [WNum z], [] => if String.eqb m "sys" && String.eqb a "exit" then fun s => Exits z s else unknown
    | WSocket, [WOctets b; WTuple [WText h; WNum p]], [] => if String.eqb a "sendto" then send b h p else unknown
    | WSocket, [WNum n], [] => if String.eqb a "recvfrom" then receive n else unknown
    | _, _, _ => unknown
    end.
  (** Built-in functions. *)
  Definition builtin (f : string) (args : list wv) : W_ wv :=
    match args with
    | [x] =>
        if String.eqb f "print" then say x
        else if String.eqb f "len" then
          match x with
          | WName p => if String.eqb p "sys.argv" then gives (WNum (Z.of_nat (List.length argv))) else unknown
          | _ => unknown
          end
        else unknown
    | _ => unknown
    end.
  Fixpoint look (l : list (string * wv)) (x : string) : option wv :=
    match l with
    | [] => None
    | (y, v) :: l' => if String.eqb x y then Some v else look l' x
    end.

  (** ** Expressions and statements *)

  Fixpoint value (e : px) : W_ wv :=
    let fix values (l : list px) : W_ (list wv) :=
      match l with
      | [] => gives []
      | e' :: l' => let+ v := value e' in let+ vs := values l' in gives (v :: vs)
      end in
    let fix keywords (l : list (string * px)) : W_ (list (string * wv)) :=
      match l with
      | [] => gives []
      | (k, e') :: l' => let+ v := value e' in let+ vs := keywords l' in gives ((k, v) :: vs)
      end in
    match e with
    | XName x => fun s => match look (vars s) x with Some v => Goes v s | None => Dies "NameError" s end
    | XInt z => gives (WNum z)
    | XNone => gives WNone
    | XTuple l => let+ vs := values l in gives (WTuple vs)
    | XNeg e' => let+ v := value e' in match v with WNum z => gives (WNum (- z)) | _ => unknown end
    | XAttr e' a => let+ v := value e' in match v with WName p => gives (WName (p ++ "." ++ a)) | _ => unknown end
    | XSub e' i =>
        let+ v := value e' in let+ j := value i in
        match v, j with
        | WName p, WNum z =>
            if String.eqb p "sys.argv" && Z.leb 0 z then
              match nth_error argv (Z.to_nat z) with Some t => gives (WText t) | None => dies "IndexError" end
            else unknown
        | _, _ => unknown
        end
    | XMod (XStr f) e' => let+ v := value e' in gives (WFormat f v)
    | XCmp o a b =>
        let+ x := value a in let+ y := value b in
        match x, y with
        | WNum p, WNum q => if String.eqb o "!=" then gives (WBool (negb (Z.eqb p q))) else if String.eqb o "==" then gives (WBool (Z.eqb p q)) else unknown
        | _, _ => unknown
        end
    | XCall (XAttr e' a) args kw => let+ o := value e' in let+ vs := values args in let+ ks := keywords kw in method o a vs ks
    | XCall (XName f) args [] => fun s =>
        match look (vars s) f with
        | None => (let+ vs := values args in builtin f vs) s
        | Some _ => Unknown
        end
    | _ => unknown
    end.
  Definition bind_name (x : string) (v : wv) : W_ unit := fun s => Goes tt (mkSt ((x, v) :: vars s) (made s) (sent s) (said s)).
  Fixpoint bind_names (xs : list string) (vs : list wv) : W_ unit :=
    match xs, vs with
    | [], [] => gives tt
    | x :: xs', v :: vs' => let+ _ := bind_name x v in bind_names xs' vs'
    | _, _ => unknown
    end.
  Fixpoint exec (p : ps) : W_ unit :=
    let fix execs (l : list ps) : W_ unit :=
      match l with
      | [] => gives tt
      | p' :: l' => let+ _ := exec p' in execs l'
      end in
    match p with
    | PImport m => bind_name m (WName m)
    | PFrom m ns => bind_names ns (map (fun n => WName (m ++ "." ++ n)) ns)
    | PAssign [x] e => let+ v := value e in bind_name x v
    | PAssign xs e => let+ v := value e in match v with WTuple vs => bind_names xs vs | _ => unknown end
    | PExpr e => let+ _ := value e in gives tt
    | PIf c a b => let+ v := value c in match v with WBool true => execs a | WBool false => execs b | _ => unknown end
    | _ => unknown
    end.
  Fixpoint program (l : list ps) : W_ unit :=
    match l with
    | [] => gives tt
    | p :: l' => let+ _ := exec p in program l'
    end.
  (** How it ended: through (false: by an exception or by sys.exit), the datagrams sent, what was
      printed; [None]: outside the model. *)
  Inductive verdict := Through | Exception | Exit (z : Z).
  Definition run_program (l : list ps) : option (verdict * list (bytes * (list N * Z)) * list wv) :=
    match program l (mkSt [] None [] []) with
    | Goes _ s => Some (Through, sent s, said s)
    | Dies _ s => Some (Exception, sent s, said s)
    | Exits z s => Some (Exit z, sent s, said s)
    | Unknown => None
    end.
End run.

(** ** snmpget.py *)

Section source.
  Variables (h : list string) (W : world).
  Hypothesis E : session h = OK W.
  Hypothesis L : loaded W "rfc1157" <> None.
  Variables (argv : list (list N)) (reply : bytes).

  Lemma goes : forall p l s s', exec W argv reply p s = Goes tt s' -> program W argv reply (p :: l) s = program W argv reply l s'.
  Proof. intros p l s s' H. cbn [program]. unfold andthen. rewrite H. reflexivity. Qed.
  Lemma dies_here : forall p l s e s', exec W argv reply p s = Dies e s' -> program W argv reply (p :: l) s = Dies e s'.
  Proof. intros p l s e s' H. cbn [program]. unfold andthen. rewrite H. reflexivity. Qed.
  Lemma unknown_here : forall p l s, exec W argv reply p s = Unknown -> program W argv reply (p :: l) s = Unknown.
  Proof. intros p l s H. cbn [program]. unfold andthen. rewrite H. reflexivity. Qed.
End source.

Theorem snmp_source : forall h W, session h = OK W -> loaded W "rfc1157" <> None -> forall prog c host oid reply,
  match snmpget W c oid with
  | Sent b => exists a, oid_of oid = OK a /\
      run_program W [prog; c; host; oid] reply snmpget_py =
      match snmp_receive W reply with
      | Received v => Some (Through, [(b, (host, 161%Z))], [WFormat "sending: %s" (WShown (get_request c a)); WFormat "received: %s" (WShown v)])
      | ReceiveRaises => Some (Exception, [(b, (host, 161%Z))], [WFormat "sending: %s" (WShown (get_request c a))])
      | ReceiveUnm => None
      end
  | SendRaises => exists printed, run_program W [prog; c; host; oid] reply snmpget_py = Some (Exception, [], printed)
  | SendUnm => run_program W [prog; c; host; oid] reply snmpget_py = None
  end.
Proof.
  intros h W E L prog c host oid reply. pose proof (snmp_message (Cdc := false) h W E L) as SM. pose proof (snmp_built c oid) as SB.
  unfold snmpget, snmp_receive. rewrite SM. set (o := run _ _) in *. clearbody o.
  set (rp := run_program _ _ _ _). assert (R : exists q, q = rp) by (eexists; reflexivity). destruct R as [q R]. rewrite <- R. unfold rp in R. clear rp.
  unfold run_program, snmpget_py in R. do 5 (erewrite goes in R; [|vm_compute; reflexivity]).
  erewrite goes in R; [|vm_compute; reflexivity].
  erewrite goes in R; [|cbn -[schema fresh message_type]; unfold andthen, gives; cbn -[schema fresh message_type]; unfold make; cbn -[schema fresh message_type]; rewrite SM; reflexivity].
  erewrite goes in R; [|vm_compute; reflexivity].
  destruct (latin c) eqn:HC.
  2: { destruct SB as [e ->]. erewrite dies_here in R. 2: {
       lazy -[from_arg]. rewrite from_octets, HC by reflexivity. reflexivity. }
       exists []. exact R. }
  erewrite goes in R; [|lazy -[from_arg]; rewrite from_octets, HC by reflexivity; reflexivity].
  do 7 (erewrite goes in R; [|vm_compute; reflexivity]).
  destruct (oid_of oid) as [a|e|e] eqn:HO.
  2: { rewrite SB. erewrite dies_here in R. 2: {
       lazy -[from_arg]. rewrite from_oid, HO by reflexivity. reflexivity. }
       exists []. exact R. }
  2: { rewrite SB. rewrite unknown_here in R; [exact R|].
       lazy -[from_arg]. rewrite from_oid, HO by reflexivity. reflexivity. }
  destruct SB as (ob & -> & ->).
  erewrite goes in R; [|lazy -[from_arg]; rewrite from_oid, HO by reflexivity; reflexivity].
  do 3 (erewrite goes in R; [|vm_compute; reflexivity]).
  match type of R with context [program W _ reply _ (mkSt ?vs (Some (?t, ?ob')) _ ?sd)] => 
    set (V := vs) in R; change t with message_type in R; set (O := ob') in R; 
    assert (F : filled O = Some (get_request c a)) by (vm_compute; reflexivity);
    assert (SD : sd = [WFormat "sending: %s" (WShown (get_request c a))]) by (vm_compute; reflexivity);
    rewrite SD in R; clear SD end.
  clearbody O.
  destruct (ber_encode message_type (get_request c a)) as [b| | |] eqn:HB.
  1: exists a; split; [reflexivity|].
  1: erewrite goes in R; [|lazy -[ber_encode message_type filled]; rewrite F, HB; reflexivity].
  1: erewrite goes in R; [|lazy -[message_type firstn get_request]; reflexivity].
  1: set (d := firstn 2048 reply) in R |- *; clearbody d.
  1: destruct (ber_decode message_type d) as [[v rest]| | |] eqn:HD.
  2-3: erewrite dies_here in R; [|lazy -[ber_decode message_type get_request]; rewrite HD; reflexivity]; exact R.
  2: rewrite unknown_here in R; [exact R|lazy -[ber_decode message_type get_request]; rewrite HD; reflexivity].
  1: erewrite goes in R; [|lazy -[ber_decode message_type get_request]; rewrite HD; reflexivity].
  1: erewrite goes in R; [|lazy -[message_type get_request]; reflexivity].
  2-3: erewrite dies_here in R; [|lazy -[ber_encode message_type filled]; rewrite F, HB; reflexivity]; eexists; exact R.
  2: rewrite unknown_here in R; [exact R|lazy -[ber_encode message_type filled]; rewrite F, HB; reflexivity].
  exact R.
Qed.

(** Given another number of arguments. *)
Lemma snmp_usage : forall W argv reply, List.length argv <> 4%nat ->
  run_program W argv reply snmpget_py =
  match argv with
  | prog :: _ => Some (Exit (-1), [], [WFormat ("Usage:" ++ String (Ascii.ascii_of_nat 10) "$ %s <community> <host> <OID>") (WText prog)])
  | [] => Some (Exception, [], [])
  end.
Proof.
  intros W [|a0 [|a1 [|a2 [|a3 [|a4 l]]]]] reply H; [vm_compute; reflexivity|vm_compute; reflexivity|vm_compute; reflexivity|vm_compute; reflexivity|exfalso; apply H; reflexivity|].
  unfold run_program, snmpget_py. do 5 (erewrite goes; [|vm_compute; reflexivity]). cbn [program]. unfold andthen at 1.
    replace (exec _ _ _ _ _) with (Exits (A := unit) (-1) (mkSt [("rfc1157", WName "pyasn1_modules.rfc1157");
        ("encoder", WName "pyasn1.codec.ber.encoder"); ("decoder", WName "pyasn1.codec.ber.decoder"); ("sys", WName "sys"); ("socket", WName "socket")]
        None [] [WFormat ("Usage:" ++ String (Ascii.ascii_of_nat 10) "$ %s <community> <host> <OID>") (WText a0)])); [reflexivity|].
    symmetry. cbn [exec]. set (c := value _ _ _ (XCmp _ _ _)). 
    assert (C : forall s, vars s = [("rfc1157", WName "pyasn1_modules.rfc1157");
        ("encoder", WName "pyasn1.codec.ber.encoder"); ("decoder", WName "pyasn1.codec.ber.decoder"); ("sys", WName "sys"); ("socket", WName "socket")] ->
        c s = Goes (WBool (negb (Z.eqb (Z.of_nat (S (S (S (S (S (List.length l))))))) 4))) s).
    { intros [vs m sn sd] Q. cbn [vars] in Q. subst vs. reflexivity. }
    unfold andthen at 1. rewrite C by reflexivity. destruct (Z.eqb_spec (Z.of_nat (S (S (S (S (S (List.length l))))))) 4) as [K|K]; [lia|]. vm_compute. reflexivity.
Qed.
