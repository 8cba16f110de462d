(** Property C67: tools/snmpget.py run from its source.

    Gen/ScriptSnmp.v holds the statements of the program; Tools/ScriptSnmp.v runs them.
    [run_program W argv reply snmpget_py]: how the program with the arguments [argv] ends when
    the datagram [reply] comes back, the datagrams it sent (octets, host, port) and what it
    printed; [None]: outside the model. *)
From Coq Require Import List String ZArith NArith Bool Lia.
From Verif Require Import Py.Syntax Asn1.Types Py.Eval Asn1.Bytes Asn1.Der Asn1.Wf Load.Import Load.Computed Load.Schemas
  Spec.X680 Spec.X690 Spec.Agree Spec.Regular Spec.Reads Spec.Ber Spec.Leaves Spec.Catalogue Spec.Deviations Spec.Instances
  Tools.Layers Tools.Objects Tools.Snmp Tools.SnmpAnswer Gen.ScriptSnmp Tools.ScriptSnmp Props.ToolProps.
Import ListNotations.
Open Scope string_scope.
Open Scope list_scope.

(** The source sends what the model of Tools/Snmp.v sends, once and to port 161 of the host
    named, reads of the datagram that comes back what Tools/SnmpAnswer.v reads, and prints the
    request and the value read. *)
Theorem C67_snmpget : forall h W, session h = OK W -> loaded W "rfc1157" <> None -> forall prog community host oid reply,
  match snmpget W community oid with
  | Sent b => exists arcs, oid_of oid = OK arcs /\
      run_program W [prog; community; host; oid] reply snmpget_py =
      match snmp_receive W reply with
      | Received v => Some (Through, [(b, (host, 161%Z))],
          [WFormat "sending: %s" (WShown (get_request community arcs)); WFormat "received: %s" (WShown v)])
      | ReceiveRaises => Some (Exception, [(b, (host, 161%Z))], [WFormat "sending: %s" (WShown (get_request community arcs))])
      | ReceiveUnm => None
      end
  | SendRaises => exists printed, run_program W [prog; community; host; oid] reply snmpget_py = Some (Exception, [], printed)
  | SendUnm => run_program W [prog; community; host; oid] reply snmpget_py = None
  end.
Proof. exact snmp_source. Qed.
Print Assumptions C67_snmpget.

(** In the terms of RFC 1157: for a community in iso-8859-1 and an object identifier written as
    runs of digits between dots, the source sends the DER of the get-request, and when the
    first 2048 octets that come back begin with an encoding of the Message [v], it prints [v]. *)
Theorem C67_gets : forall h W, session h = OK W -> loaded W "rfc1157" <> None ->
  exists s, definition "rfc1157" "Message" = Some s /\
  forall prog community host pieces, Forall (fun c => c < 256)%N community -> Forall digits pieces ->
  let arcs := map number (filter nonempty pieces) in arcs_ok arcs = true ->
  let request := VSeq [Some (VInt 0); Some (VOcts community);
                       Some (VAlt 0 (VSeq [Some (VInt 123); Some (VInt 0); Some (VInt 0);
                         Some (VList [VSeq [Some (VOid arcs); Some (VAlt 0 (VAlt 3 VNull))]])]))] in
  forall b, DER s request = Some b ->
  forall reply e rest v, forallb is_byte reply = true -> leaves (without ["trap"]) s v = true ->
  firstn 2048 reply = e ++ rest -> taken_for (Cdc := ber) true false s None v e ->
  run_program W [prog; community; host; joined pieces] reply snmpget_py =
  Some (Through, [(b, (host, 161%Z))], [WFormat "sending: %s" (WShown request); WFormat "received: %s" (WShown v)]).
Proof.
  intros h W E L. destruct (C51_snmpget_sends h W E L) as (s & D & H). destruct (C60_snmpget_receives h W E L) as (s' & D' & H').
  rewrite D in D'. injection D' as <-. exists s. split; [exact D|]. intros prog community host pieces FC FD arcs A request b HB reply e rest v O LV F TK.
  pose proof (C67_snmpget h W E L prog community host (joined pieces) reply) as R. specialize (H community pieces FC FD A).
  fold arcs in H. fold request in H. rewrite HB in H. rewrite H in R. destruct R as (a & HO & R). 
  rewrite (proj2 (H' reply v O LV) (ex_intro _ e (ex_intro _ rest (conj F TK)))) in R.
  rewrite (oid_of_joined pieces FD) in HO. injection HO as <-. exact R.
Qed.
Print Assumptions C67_gets.

(** A community with other characters: nothing is sent. *)
Theorem C67_community : forall h W, session h = OK W -> loaded W "rfc1157" <> None -> forall prog community host oid reply,
  ~ Forall (fun c => c < 256)%N community ->
  exists printed, run_program W [prog; community; host; oid] reply snmpget_py = Some (Exception, [], printed).
Proof.
  intros h W E L prog community host oid reply N. pose proof (C67_snmpget h W E L prog community host oid reply) as R.
  rewrite (C51_snmpget_community h W E L community oid N) in R. exact R.
Qed.
Print Assumptions C67_community.

(** With another number of arguments the source prints its usage, sends nothing and exits
    with -1. *)
Theorem C67_usage : forall W prog args reply, List.length args <> 3%nat ->
  run_program W (prog :: args) reply snmpget_py =
  Some (Exit (-1), [], [WFormat ("Usage:" ++ String (Ascii.ascii_of_nat 10) "$ %s <community> <host> <OID>") (WText prog)]).
Proof. intros W prog args reply N. apply snmp_usage. cbn [List.length]. lia. Qed.
Print Assumptions C67_usage.

(** snmpget public 10.0.0.1 .1.3.6.1.2.1.1.1.0, given the response of C60 with two octets after
    it; and given one cut short. *)
Example C67_ex : during ["rfc1157"] (fun W =>
    match run_program W [chars "snmpget.py"; chars "public"; chars "10.0.0.1"; chars ".1.3.6.1.2.1.1.1.0"] (snmp_response ++ [0; 0]%N) snmpget_py,
          run_program W [chars "snmpget.py"; chars "public"; chars "10.0.0.1"; chars ".1.3.6.1.2.1.1.1.0"] (firstn 50 snmp_response) snmpget_py with
    | Some (Through, [(b, (host, port))], [_; WFormat _ (WShown v)]), Some (Exception, [(b', _)], [_]) =>
        aval_eqb v snmp_responded && Z.eqb port 161 && list_eqb N.eqb host (chars "10.0.0.1") && list_eqb N.eqb b b' && Nat.eqb (List.length b) 40
    | _, _ => false
    end) = true.
Proof. vm_compute. reflexivity. Qed.
