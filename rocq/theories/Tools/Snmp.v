(** tools/snmpget.py: the request it sends. *)
From Coq Require Import List String ZArith NArith Bool Lia.
From Verif Require Import Py.Syntax Asn1.Types Py.Eval Asn1.Bytes Asn1.EqbFacts Asn1.Der Asn1.Wf
  Load.Import Load.Computed Load.Schemas Load.Checked Load.CheckedFacts Spec.X680 Spec.X690 Spec.Agree Spec.Conform Spec.Regular
  Spec.Catalogue Spec.Deviations Spec.Checked Spec.Facts Tools.Recode Tools.Layers Tools.Objects.
Import ListNotations.
Open Scope string_scope.
Open Scope list_scope.

Section codec.
Context {Cdc : codec}.

(** snmpget.py:23-36.  After line 23 [msg] is the root; pdus = [2], pdu = [2; 0],
    vbl = [2; 0; 3], vb = [2; 0; 3; 0]. *)
Definition snmpget_steps (community oid : list N) : list step := [
  ([], 0%nat, None);                              (* :24 *)
  ([], 1%nat, Some (Txt community));              (* :25 *)
  ([], 2%nat, None);                              (* :27 *)
  ([2], 0, None)%nat;                             (* :28 *)
  ([2; 0], 0, Some (Num 123%Z))%nat;              (* :29 *)
  ([2; 0], 1, Some (Num 0%Z))%nat;                (* :30 *)
  ([2; 0], 2, Some (Num 0%Z))%nat;                (* :31 *)
  ([2; 0], 3, None)%nat;                          (* :32 *)
  ([2; 0; 3], 0, None)%nat;                       (* :33 *)
  ([2; 0; 3; 0], 0, Some (Txt oid))%nat;          (* :34 *)
  ([2; 0; 3; 0], 1, None)%nat;                    (* :35 *)
  ([2; 0; 3; 0; 1], 0, None)%nat;
  ([2; 0; 3; 0; 1; 0], 3, None)%nat].

Inductive sending := Sent (b : bytes) | SendRaises | SendUnm.
(** snmpget.py:23-40, up to the datagram. *)
Definition snmpget (W : world) (community oid : list N) : sending :=
  match schema W "rfc1157" "Message" with
  | Some (t, dv) =>
      match run (snmpget_steps community oid) (fresh t dv) with
      | OK o => match filled o with
                | Some v => match ber_encode t v with Ok b => Sent b | Unm => SendUnm | _ => SendRaises end
                | None => SendUnm
                end
      | Raise _ => SendRaises
      | Stuck _ => SendUnm
      end
  | None => SendUnm
  end.

(** The message of RFC 1157 it is for: version-1, a get-request with one variable. *)
Definition get_request (community : list N) (arcs : list N) : aval :=
  VSeq [Some (VInt 0); Some (VOcts community);
        Some (VAlt 0 (VSeq [Some (VInt 123); Some (VInt 0); Some (VInt 0);
          Some (VList [VSeq [Some (VOid arcs); Some (VAlt 0 (VAlt 3 VNull))]])]))].

(** The schema object. *)
Definition message_type : asn1 := Eval vm_compute in
  match session ["rfc1157"] with OK W => match schema W "rfc1157" "Message" with Some (t, _) => t | None => TOf false (mkM [] (CInter []) [] (CInter [])) None end
  | _ => TOf false (mkM [] (CInter []) [] (CInter [])) None end.
Definition message_ok : bool :=
  match session ["rfc1157"] with OK W => opt_eqb entry_eqb (schema W "rfc1157" "Message") (Some (message_type, None)) | _ => false end.
Lemma message_checked : message_ok = true.
Proof. vm_compute. reflexivity. Qed.

Opaque T session.

Lemma snmp_message : forall h W, session h = OK W -> loaded W "rfc1157" <> None -> schema W "rfc1157" "Message" = Some (message_type, None).
Proof.
  intros h W E L. pose proof message_checked as C. unfold message_ok in C. destruct (session ["rfc1157"]) as [W0|e|e] eqn:E0; [|discriminate C|discriminate C].
  destruct (schema W0 "rfc1157" "Message") as [[t o]|] eqn:HS; [|discriminate C]. cbn [opt_eqb] in C. apply entry_eqb_iff in C.
  assert (Q : Some (t, o) = Some (message_type, None)) by (f_equal; exact C). 
  exact (eq_trans (schema_is h W _ _ E L) (eq_trans (eq_sym (schema_is _ W0 _ _ E0 (schema_loaded _ _ _ _ HS))) (eq_trans HS Q))).
Qed.

(** What the steps build. *)
Definition latin (c : list N) : bool := forallb (fun x => N.ltb x 256) c.
Lemma from_octets : forall m c, spec m = CInter [] -> from_arg KOcts m (Txt c) = if latin c then OK (VOcts c) else Raise "PyAsn1UnicodeEncodeError".
Proof. intros m c H. unfold from_arg. fold (latin c). destruct (latin c); cbn [bind]; [rewrite H|]; reflexivity. Qed.
Lemma from_oid : forall m o, spec m = CInter [] -> from_arg KOid m (Txt o) = do a <- oid_of o; OK (VOid a).
Proof. intros m o H. unfold from_arg. destruct (oid_of o); cbn [bind]; [rewrite H|..]; reflexivity. Qed.
Lemma from_number : forall m z, spec m = CInter [] -> from_arg KInt m (Num z) = OK (VInt z).
Proof. intros m z H. unfold from_arg. cbn [bind]. rewrite H. reflexivity. Qed.
Lemma run_cons : forall p i a ss o o', set_at p i a o = OK o' -> run ((p, i, a) :: ss) o = run ss o'.
Proof. intros p i a ss o o' H. cbn [run]. rewrite H. reflexivity. Qed.
Lemma run_raises : forall p i a ss o e, set_at p i a o = Raise e -> run ((p, i, a) :: ss) o = Raise e.
Proof. intros p i a ss o e H. cbn [run]. rewrite H. reflexivity. Qed.
Lemma run_stuck : forall p i a ss o e, set_at p i a o = Stuck e -> run ((p, i, a) :: ss) o = Stuck e.
Proof. intros p i a ss o e H. cbn [run]. rewrite H. reflexivity. Qed.
Lemma snmp_built : forall c o, match latin c, oid_of o with
  | false, _ => exists e, run (snmpget_steps c o) (fresh message_type None) = Raise e
  | true, OK a => exists ob, run (snmpget_steps c o) (fresh message_type None) = OK ob /\ filled ob = Some (get_request c a)
  | true, Raise e => run (snmpget_steps c o) (fresh message_type None) = Raise e
  | true, Stuck e => run (snmpget_steps c o) (fresh message_type None) = Stuck e
  end.
Proof.
  intros c o. set (r := run _ _). assert (R : exists q, q = r) by (eexists; reflexivity). destruct R as [q R]. rewrite <- R. unfold r in R. clear r.
  unfold snmpget_steps in R. erewrite run_cons in R; [|vm_compute; reflexivity]. 
  destruct (latin c) eqn:HC.
  2: { exists "PyAsn1UnicodeEncodeError". rewrite R. apply run_raises. cbn -[from_arg]. rewrite from_octets, HC by reflexivity. reflexivity. }
  erewrite run_cons in R; [|cbn -[from_arg]; rewrite from_octets, HC by reflexivity; reflexivity]. 
  do 7 (erewrite run_cons in R; [|vm_compute; reflexivity]).
  destruct (oid_of o) as [a|e|e] eqn:HO.
  - erewrite run_cons in R; [|cbn -[from_arg oid_of]; rewrite from_oid, HO by reflexivity; reflexivity].
    do 3 (erewrite run_cons in R; [|vm_compute; reflexivity]). cbn [run] in R. eexists. split; [exact R|vm_compute; reflexivity].
  - rewrite R. apply run_raises. cbn -[from_arg oid_of]. rewrite from_oid, HO by reflexivity. reflexivity.
  - rewrite R. apply run_stuck. cbn -[from_arg oid_of]. rewrite from_oid, HO by reflexivity. reflexivity.
Qed.

(** ** The text of an object identifier *)

(** Texts joined by dots. *)
Fixpoint joined (l : list (list N)) : list N :=
  match l with
  | [] => []
  | [p] => p
  | p :: l' => p ++ 46%N :: joined l'
  end.
Definition number (p : list N) : N := fold_left (fun a c => a * 10 + (c - 48))%N p 0%N.
Definition digits (p : list N) : Prop := Forall (fun c => 48 <= c <= 57)%N p /\ (List.length p <= 4300)%nat.

Lemma split_joined : forall l, l <> [] -> Forall (fun p => ~ In 46%N p) l -> split_on 46%N (joined l) = l.
Proof.
  assert (A : forall p, ~ In 46%N p -> forall s q qs, split_on 46%N s = q :: qs -> split_on 46%N (p ++ s) = (p ++ q) :: qs).
  { induction p as [|c p IH]; intros NI s q qs H; [exact H|]. cbn [app split_on].
    destruct (N.eqb_spec c 46); [exfalso; apply NI; left; assumption|]. rewrite (IH (fun I => NI (or_intror I)) s q qs H). reflexivity. }
  induction l as [|p l IH]; intros NE F; [congruence|]. inversion F as [|p' l' NP FL]; subst. destruct l as [|q l].
  - cbn [joined]. pose proof (A p NP [] [] [] eq_refl) as B. rewrite !app_nil_r in B. exact B.
  - cbn [joined]. specialize (IH ltac:(discriminate) FL).
    pose proof (A p NP (46%N :: joined (q :: l)) [] (q :: l)) as B. rewrite app_nil_r in B. apply B. cbn [split_on N.eqb Pos.eqb]. rewrite IH. reflexivity.
Qed.

Definition nonempty (p : list N) : bool := negb (Nat.eqb (List.length p) 0).
Lemma digit_in : forall p c, digits p -> In c p -> (48 <= c <= 57)%N.
Proof. intros p c [F _] I. rewrite Forall_forall in F. exact (F c I). Qed.
Lemma int_of_digits : forall p, digits p -> nonempty p = true -> int_of p = OK (number p).
Proof.
  intros p D NE. unfold int_of. destruct D as [F L]. replace (forallb is_digit p) with true.
  - unfold nonempty in NE. rewrite NE. destruct (Nat.leb_spec (List.length p) 4300); [reflexivity|lia].
  - symmetry. apply forallb_forall. intros c I. rewrite Forall_forall in F. specialize (F c I). unfold is_digit.
    apply andb_true_iff; split; apply N.leb_le; lia.
Qed.
Lemma in_joined : forall l c, In c (joined l) -> c = 46%N \/ exists p, In p l /\ In c p.
Proof.
  induction l as [|p l IH]; intros c I; [destruct I|]. destruct l as [|q l].
  - right. exists p. split; [left; reflexivity|exact I].
  - cbn [joined] in I. apply in_app_or in I. destruct I as [I|[I|I]].
    + right. exists p. split; [left; reflexivity|exact I].
    + left. symmetry. exact I.
    + destruct (IH c I) as [Q|(p' & P & Q)]; [left; exact Q|right; exists p'; split; [right; exact P|exact Q]].
Qed.
(** Runs of digits between dots; empty ones are skipped. *)
Lemma oid_of_joined : forall l, Forall digits l -> oid_of (joined l) = OK (map number (filter nonempty l)).
Proof.
  intros l F. unfold oid_of. replace (existsb (N.eqb 45) (joined l)) with false.
  - assert (FL : Forall digits (filter nonempty l)).
    { rewrite Forall_forall in *. intros p I. apply filter_In in I. apply F, I. }
    assert (IN : forall p, In p (filter nonempty l) -> nonempty p = true) by (intros p I; apply filter_In in I; apply I).
    assert (G : filter (fun p => negb (Nat.eqb (List.length p) 0)) (split_on 46%N (joined l)) = filter nonempty l).
    { destruct l as [|p l]; [reflexivity|]. rewrite split_joined; [reflexivity|discriminate|].
      rewrite Forall_forall in *. intros q I J. pose proof (digit_in q _ (F q I) J). lia. }
    rewrite G. clear G F. induction (filter nonempty l) as [|p ps IH]; [reflexivity|]. inversion FL; subst. cbn [ints map].
    rewrite (int_of_digits p); [|assumption|apply IN; left; reflexivity]. cbn [bind]. rewrite IH; [reflexivity|assumption|].
    intros q I. apply IN. right. exact I.
  - symmetry. apply not_true_is_false. intro X. apply existsb_exists in X. destruct X as (c & I & E). apply N.eqb_eq in E. subst c.
    destruct (in_joined _ _ I) as [Q|(p & P & Q)]; [discriminate Q|]. rewrite Forall_forall in F. pose proof (digit_in p _ (F p P) Q). lia.
Qed.

(** ** The request *)

Definition snmp_definition : sty := Eval vm_compute in match definition "rfc1157" "Message" with Some s => s | None => AAny end.
Lemma snmp_defined : definition "rfc1157" "Message" = Some snmp_definition.
Proof. vm_compute. reflexivity. Qed.
Lemma get_request_has : forall c a, latin c = true -> arcs_ok a = true -> has snmp_definition (get_request c a) = true.
Proof.
  intros c a HC HA. unfold latin in HC. unfold snmp_definition, get_request. cbn -[arcs_ok forallb N.ltb]. rewrite HC. cbn [forallb]. rewrite HA. reflexivity.
Qed.
Lemma get_request_spares : forall c a, spares (without ["trap"]) snmp_definition (get_request c a) = true.
Proof. intros c a. vm_compute. reflexivity. Qed.
Lemma get_request_regular : forall c a, regular false snmp_definition (get_request c a) = true.
Proof. intros c a. vm_compute. reflexivity. Qed.
Lemma snmp_deviates : In ("rfc1157", "Message") deviating /\ exempted ("rfc1157", "Message") = Some (without ["trap"]).
Proof. split; [apply mem2_in|]; vm_compute; reflexivity. Qed.
Lemma message_ber : ber_as_der message_type = true.
Proof. vm_compute. reflexivity. Qed.

Lemma snmpget_sends : forall h W, session h = OK W -> loaded W "rfc1157" <> None -> forall community pieces,
  Forall (fun c => c < 256)%N community -> Forall digits pieces ->
  let arcs := map number (filter nonempty pieces) in arcs_ok arcs = true ->
  snmpget W community (joined pieces) = match DER snmp_definition (get_request community arcs) with Some b => Sent b | None => SendRaises end.
Proof.
  intros h W E L c ps HC HP arcs HA. unfold snmpget. rewrite (snmp_message h W E L).
  assert (LC : latin c = true) by (apply forallb_forall; rewrite Forall_forall in HC; intros x I; apply N.ltb_lt, HC, I).
  pose proof (snmp_built c (joined ps)) as B. rewrite LC, (oid_of_joined ps HP) in B. destruct B as (ob & R & F). rewrite R, F. fold arcs.
  unfold ber_encode. rewrite message_ber. 
  rewrite (confined_encodes h W _ _ E _ _ snmp_defined (snmp_message h W E L) _ (proj1 snmp_deviates) (proj2 snmp_deviates) _
    (get_request_has c arcs LC HA) (get_request_spares c arcs) (get_request_regular c arcs)).
  destruct (DER snmp_definition (get_request c arcs)); reflexivity.
Qed.
(** A community outside iso-8859-1: nothing is sent. *)
Lemma snmpget_community : forall h W, session h = OK W -> loaded W "rfc1157" <> None -> forall community oid,
  ~ Forall (fun c => c < 256)%N community -> snmpget W community oid = SendRaises.
Proof.
  intros h W E L c o N. unfold snmpget. rewrite (snmp_message h W E L). pose proof (snmp_built c o) as B. destruct (latin c) eqn:LC.
  - exfalso. apply N, Forall_forall. intros x I. unfold latin in LC. rewrite forallb_forall in LC. apply N.ltb_lt, LC, I.
  - destruct B as (e & B). rewrite B. reflexivity.
Qed.
(** An identifier with a minus sign, or with a run that has another character no number has. *)
Lemma snmpget_oid : forall h W, session h = OK W -> loaded W "rfc1157" <> None -> forall community oid e,
  Forall (fun c => c < 256)%N community -> oid_of oid = Raise e -> snmpget W community oid = SendRaises.
Proof.
  intros h W E L c o e HC HO. unfold snmpget. rewrite (snmp_message h W E L). pose proof (snmp_built c o) as B. rewrite HO in B.
  assert (LC : latin c = true) by (apply forallb_forall; rewrite Forall_forall in HC; intros x I; apply N.ltb_lt, HC, I).
  rewrite LC in B. rewrite B. reflexivity.
Qed.

End codec.
