(** tools/snmpget.py: what it does with the response. *)
From Coq Require Import List String ZArith NArith Bool Lia.
From Verif Require Import Py.Syntax Asn1.Types Py.Eval Asn1.Bytes Asn1.EqbFacts Asn1.Der Asn1.Wf Asn1.RoundTrip
  Load.Import Load.Computed Load.Schemas Load.Checked Load.CheckedFacts Spec.X680 Spec.X690 Spec.Agree Spec.Conform Spec.Regular Spec.Reads
  Spec.Ber Spec.Leaves Spec.Accepts Spec.Complete Spec.Catalogue Spec.Deviations Spec.Checked Spec.Facts Spec.Instances Tools.Recode Tools.Layers Tools.Objects Tools.Snmp.
Import ListNotations.
Open Scope string_scope.
Open Scope list_scope.

(** The BER codec. *)
Definition ber : codec := true.
#[local] Existing Instance ber.
(** pyasn1/codec/ber/decoder.py, decode(s, asn1Spec=t).  It does what [decode] does with its own
    decoders of BOOLEAN, BIT STRING and OCTET STRING, and besides reads items of indefinite
    length (a length octet 128), which are outside the model. *)
Definition indefinite (s : bytes) : bool := match dec_tag s with Some (_, l :: _) => N.eqb l 128 | _ => false end.
Definition ber_decode (t : asn1) (s : bytes) : res (aval * bytes) :=
  match decode (Cdc := ber) t s with
  | Err => match dec_header s with
           | None => if indefinite s then Unm else Err
           | Some _ => if existsb (N.eqb 128) s then Unm else Err
           end
  | r => r
  end.

Inductive receipt := Received (v : aval) | ReceiveRaises | ReceiveUnm.
(** snmpget.py:42-47.  recvfrom(2048) drops what a datagram has beyond 2048 octets.  asn1Spec is
    the request, a Message object with values in it: a clone without them is filled. *)
Definition snmp_receive (W : world) (datagram : bytes) : receipt :=
  match schema W "rfc1157" "Message" with
  | Some (t, _) =>
      match ber_decode t (firstn 2048 datagram) with
      | Ok (v, _) => Received v
      | Unm => ReceiveUnm
      | _ => ReceiveRaises
      end
  | None => ReceiveUnm
  end.

(** ** Truncation *)

Lemma cut_header : forall n t k c b, octets b -> an_item t k c b -> (n < List.length b)%nat -> dec_header (firstn n b) = None.
Proof.
  intros n t k c b O I L. destruct (dec_header (firstn n b)) as [[[g c'] r]|] eqn:D; [exfalso|reflexivity].
  assert (OF : octets (firstn n b)) by (rewrite <- (firstn_skipn n b), forallb_app in O; apply andb_prop in O; exact (proj1 O)).
  destruct (header_item _ _ _ _ OF D) as (b' & E & H & _). pose proof (header_read g c' b' (r ++ skipn n b) H) as K1.
  rewrite app_assoc, <- E, firstn_skipn in K1. pose proof (item_read t k c b [] I) as K2. rewrite app_nil_r, K1 in K2. injection K2 as _ _ K2.
  apply app_eq_nil in K2. destruct K2 as [_ K2]. pose proof (skipn_length n b) as SL. rewrite K2 in SL. cbn in SL. lia.
Qed.
Lemma item_definite : forall n t k c b, octets b -> an_item t k c b -> indefinite (firstn n b) = false.
Proof.
  intros n t k c b O (i & l & I & M & ->). unfold indefinite. destruct (dec_tag _) as [[g [|l0 r]]|] eqn:D; try reflexivity.
  set (b := i ++ l ++ c) in *.
  assert (OF : octets (firstn n b)) by (rewrite <- (firstn_skipn n b), forallb_app in O; apply andb_prop in O; exact (proj1 O)).
  destruct (tag_identifies _ _ _ OF D) as (i' & E & I'). pose proof (tag_read _ _ _ _ ((l0 :: r) ++ skipn n b) I') as K1.
  rewrite app_assoc, <- E, firstn_skipn in K1. pose proof (tag_read _ _ _ _ (l ++ c) I) as K2. fold b in K2. rewrite K1 in K2. injection K2 as _ _ _ K2.
  pose proof (len_read _ _ c M) as K3. rewrite <- K2 in K3. cbn [app dec_len] in K3. destruct (N.eqb_spec l0 128) as [->|]; [discriminate K3|reflexivity].
Qed.

(** ** The response *)

Lemma message_item : forall bd new v e, taken_for (Cdc := ber) bd new snmp_definition None v e -> exists t k c, an_item t k c e.
Proof. intros bd new v e (vs & c & _ & I & _). eexists _, _, _. exact I. Qed.
Lemma message_exact : mem2 ambiguous_types ("rfc1157", "Message") = false /\ mem2 inexact ("rfc1157", "Message") = false
  /\ mem2 confined_tight ("rfc1157", "Message") = false.
Proof. vm_compute. repeat split. Qed.
Lemma decoded_received : forall t s v, (exists rest, decode (Cdc := ber) t s = Ok (v, rest)) <-> exists rest, ber_decode t s = Ok (v, rest).
Proof.
  intros t s v. unfold ber_decode. destruct (decode t s) as [[w r]| | |]; try reflexivity.
  split; intros (rest & Q); [discriminate Q|]. destruct (dec_header s); [destruct (existsb _ _)|destruct (indefinite s)]; discriminate Q.
Qed.

Section session.
  Variable h : list string.
  Variable W : world.
  Hypothesis E : session h = OK W.
  Hypothesis L : loaded W "rfc1157" <> None.
  Notation sk := (without ["trap"]).

  Lemma received_decoded : forall d v, snmp_receive W d = Received v <-> exists rest, decode (Cdc := ber) message_type (firstn 2048 d) = Ok (v, rest).
  Proof.
    intros d v. rewrite decoded_received. unfold snmp_receive. rewrite (snmp_message h W E L).
    destruct (ber_decode message_type (firstn 2048 d)) as [[w r]| | |]; split; intro Q; try discriminate Q; try (destruct Q as (rest & Q); discriminate Q).
    - injection Q as ->. exists r. reflexivity.
    - destruct Q as (rest & Q). injection Q as -> _. reflexivity.
  Qed.
  Lemma snmp_exact : forall d v, octets d -> leaves sk snmp_definition v = true ->
    (snmp_receive W d = Received v <-> exists e rest, firstn 2048 d = e ++ rest /\ taken_for (Cdc := ber) true false snmp_definition None v e).
  Proof.
    intros d v O LV. rewrite received_decoded. destruct message_exact as (A1 & A2 & A3).
    assert (OF : octets (firstn 2048 d)) by (rewrite <- (firstn_skipn 2048 d), forallb_app in O; apply andb_prop in O; exact (proj1 O)).
    pose proof (fun rest => confined_exact (Cdc := ber) h W _ _ E _ _ snmp_defined (snmp_message h W E L) _ (proj1 snmp_deviates) (proj2 snmp_deviates)
      (not_in2 _ _ _ A1) (not_in2 _ _ _ A2) _ v rest OF LV) as X.
    split.
    - intros (rest & D). apply X in D. destruct D as (e & Q & TK). exists e, rest. split; assumption.
    - intros (e & rest & Q & TK). exists rest. apply X. exists e. split; assumption.
  Qed.
  Lemma snmp_reads_all : forall e rest v, octets (e ++ rest) -> leaves sk snmp_definition v = true ->
    taken_for (Cdc := ber) true false snmp_definition None v e -> (List.length e <= 2048)%nat -> snmp_receive W (e ++ rest) = Received v.
  Proof.
    intros e rest v O LV TK LE. apply (snmp_exact _ _ O LV). exists e, (firstn (2048 - List.length e) rest). split; [|exact TK].
    rewrite firstn_app. f_equal. apply firstn_all2. exact LE.
  Qed.
  Lemma snmp_cut : forall e rest v, octets e -> taken_for (Cdc := ber) true false snmp_definition None v e -> (2048 < List.length e)%nat ->
    snmp_receive W (e ++ rest) = ReceiveRaises.
  Proof.
    intros e rest v O TK LE. destruct (message_item _ _ _ _ TK) as (t & k & c & I). unfold snmp_receive. rewrite (snmp_message h W E L).
    assert (F : firstn 2048 (e ++ rest) = firstn 2048 e).
    { rewrite firstn_app. replace (2048 - List.length e)%nat with 0%nat by lia. rewrite app_nil_r. reflexivity. }
    rewrite F. unfold ber_decode. pose proof (cut_header 2048 t k c e O I LE) as H.
    assert (D : decode (Cdc := ber) message_type (firstn 2048 e) = Err).
    { unfold decode, decode_with, dec_one. destruct (tok _); [|reflexivity]. unfold item. destruct (List.length (firstn 2048 e)); [reflexivity|].
      cbn [descend]. rewrite H. reflexivity. }
    rewrite D, H, (item_definite 2048 t k c e O I). reflexivity.
  Qed.
  (** DER. *)
  Lemma snmp_reads_der : forall v b rest, has snmp_definition v = true -> spares sk snmp_definition v = true -> regular false snmp_definition v = true ->
    normal snmp_definition v -> DER snmp_definition v = Some b -> (List.length b <= 2048)%nat -> snmp_receive W (b ++ rest) = Received v.
  Proof.
    intros v b rest H SP R N B LE. destruct message_exact as (A1 & A2 & A3). apply received_decoded. exists (firstn (2048 - List.length b) rest).
    rewrite firstn_app, (firstn_all2 b LE).
    exact (confined_reads (Cdc := ber) h W _ _ E _ _ snmp_defined (snmp_message h W E L) _ (proj1 snmp_deviates) (proj2 snmp_deviates) (not_in2 _ _ _ A1)
      v b _ H SP R N (confined_accepts h W _ _ E _ _ snmp_defined (snmp_message h W E L) _ (proj1 snmp_deviates) (proj2 snmp_deviates) (not_in2 _ _ _ A3) v H SP) B).
  Qed.
  (** The request itself passes for a response. *)
  Lemma snmp_echo : forall community pieces b, Forall (fun c => c < 256)%N community -> Forall digits pieces ->
    let arcs := map number (filter nonempty pieces) in arcs_ok arcs = true ->
    snmpget W community (joined pieces) = Sent b -> (List.length b <= 2048)%nat -> snmp_receive W b = Received (get_request community arcs).
  Proof.
    intros c ps b HC HP arcs HA S LE. pose proof (snmpget_sends (Cdc := ber) h W E L c ps HC HP HA) as SE. fold arcs in SE. rewrite S in SE.
    destruct (DER snmp_definition (get_request c arcs)) as [b'|] eqn:D; [|discriminate SE]. injection SE as <-.
    assert (LC : latin c = true) by (apply forallb_forall; rewrite Forall_forall in HC; intros x I; apply N.ltb_lt, HC, I).
    rewrite <- (app_nil_r b).
    apply (snmp_reads_der _ _ _ (get_request_has c arcs LC HA) (get_request_spares c arcs) (get_request_regular c arcs)); [|exact D|exact LE].
    unfold snmp_definition, get_request. cbn. repeat split; intros; repeat split.
    destruct H1 as [<-|[]]. repeat split.
  Qed.
End session.
