(** What decoding with decodeOpenTypes leaves in an open component. *)
From Coq Require Import List String ZArith NArith Bool Lia.
From Verif Require Import Asn1.Types Py.Eval Asn1.EqbFacts Asn1.Bytes Asn1.Der Asn1.RoundTrip Asn1.Total Asn1.Open Asn1.Inside.
Import ListNotations.
Open Scope string_scope.
Open Scope list_scope.

Section codec.
Context {Cdc : codec}.

(** An object of the registered type [u], with a value that was decoded from some octets. *)
Definition object_of_type (R : registry) (u : asn1) (x : aval) : Prop :=
  exists y b r n, x = VTyped u (Some y) /\ decode_with (Some (opener_of R n)) u b = Ok (y, r).
(** Absent, such an object, or several of them. *)
Definition filled_by (R : registry) (u : asn1) (o : option aval) : Prop :=
  match o with
  | None => True
  | Some (VList l) => Forall (object_of_type R u) l
  | Some x => object_of_type R u x
  end.

Lemma open_slots_nth : forall Op fs0 vs0 fs vs ws, open_slots Op fs0 vs0 fs vs = Ok ws -> forall i f, nth_error fs i = Some f ->
  exists o o', nth_error vs i = Some o /\ nth_error ws i = Some o' /\ open_slot Op fs0 vs0 f o = Ok o'.
Proof.
  intros Op fs0 vs0. induction fs as [|f0 fs IH]; intros [|o vs] ws H i f F; try discriminate H; [destruct i; discriminate F|].
  cbn [open_slots] in H. apply rbind_ok in H. destruct H as (o' & A & H). apply rbind_ok in H. destruct H as (r & B & H).
  assert (ws = o' :: r) by congruence. subst ws. destruct i as [|i]; cbn [nth_error] in *; [|exact (IH vs r B i f F)].
  assert (f0 = f) by congruence. subst f0. exists o, o'. repeat split. exact A.
Qed.
Lemma slot_find : forall n fs f, find (fun f => String.eqb (fname f) n) fs = Some f ->
  exists i, nth_error fs i = Some f /\ forall vs o, nth_error vs i = Some o -> slot_of fs vs n = o.
Proof.
  intros n. induction fs as [|f0 fs IH]; intros f H; [discriminate H|]. cbn [find] in H. destruct (String.eqb (fname f0) n) eqn:E.
  - assert (f0 = f) by congruence. subst f0. exists O. split; [reflexivity|]. intros [|o' vs] o V; cbn [nth_error] in V; [discriminate V|].
    cbn [slot_of]. rewrite E. congruence.
  - destruct (IH f H) as (i & A & B). exists (S i). split; [exact A|]. intros [|o' vs] o V; cbn [nth_error] in V; [discriminate V|].
    cbn [slot_of]. rewrite E. exact (B vs o V).
Qed.
(** Components that are not open are left alone. *)
Lemma open_slots_other : forall Op fs0 vs0 n fs vs ws, open_slots Op fs0 vs0 fs vs = Ok ws ->
  forallb (fun f => negb (String.eqb (fname f) n) || match fopen f with None => true | Some _ => false end) fs = true ->
  slot_of fs ws n = slot_of fs vs n.
Proof.
  intros Op fs0 vs0 n. induction fs as [|f fs IH]; intros [|o vs] ws H P; try discriminate H; [reflexivity|].
  cbn [open_slots] in H. apply rbind_ok in H. destruct H as (o' & A & H). apply rbind_ok in H. destruct H as (r & B & H).
  assert (ws = o' :: r) by congruence. subst ws. cbn [forallb] in P. apply andb_true_iff in P. destruct P as [P1 P2].
  cbn [slot_of]. destruct (String.eqb (fname f) n); [|exact (IH vs r B P2)]. cbn [negb orb] in P1. unfold open_slot in A.
  destruct (fopen f); [discriminate P1|]. congruence.
Qed.

Lemma reopened : forall R u n d k x x', R d k = Some u ->
  match opener_of R n d k with Some g => reopen g x = Ok x' | None => False end -> object_of_type R u x' /\ (forall l, x' <> VList l).
Proof.
  intros R u n d k x x' G H. destruct n as [|n]; cbn [opener_of] in H; rewrite G in H.
  - unfold reopen in H. destruct x; discriminate H.
  - unfold reopen in H. destruct x; try discriminate H.
    destruct (decode_with (Some (opener_of R n)) u _) as [[y r]| | |] eqn:D; try discriminate H. cbn in H.
    assert (x' = VTyped u (Some y)) by congruence. subst x'. split; [|intros; discriminate]. eexists y, _, r, n. split; [reflexivity|exact D].
Qed.

Theorem component_opened : forall R n isset m fs s v rest f g d k u,
  decode_with (Some (opener_of R n)) (TSeq isset m fs) s = Ok (v, rest) ->
  forall c, find (fun f => String.eqb (fname f) c) fs = Some f -> fopen f = Some (g, d) ->
  forallb (fun f => negb (String.eqb (fname f) g) || match fopen f with None => true | Some _ => false end) fs = true ->
  exists ws, v = VSeq ws /\ (gov_key (slot_of fs ws g) = Some k -> R d k = Some u -> filled_by R u (slot_of fs ws c)).
Proof.
  intros R n isset m fs s v rest f g d k u H c F O P. unfold decode_with, dec_one in H. destruct (tok _); [|discriminate H].
  apply rbind_ok in H. destruct H as ([[[ts tlv] cs] r] & _ & B). apply rbind_ok in B. destruct B as (v' & D & B').
  assert (v' = v) by congruence. subst v'. clear B'.
  cbn [comp_of c_val] in D. rewrite dec_seq_val in D. destruct (constructed ts); [|discriminate D].
  destruct fs as [|f0 fs0]; [discriminate F|]. set (fs := f0 :: fs0) in *. cbv zeta in D. apply rbind_ok in D. destruct D as (vs & _ & K).
  pose proof (find_some _ _ F) as [FI _].
  assert (E : existsb (fun h => is_some (fopen h)) fs = true) by (apply existsb_exists; exists f; split; [exact FI|rewrite O; reflexivity]).
  rewrite E in K. apply rbind_ok in K. destruct K as (ws & A & K). exists ws. split; [congruence|]. intros G RG.
  rewrite (open_slots_other _ _ _ _ _ _ _ A P) in G. destruct (slot_find _ _ _ F) as (i & Fi & SL).
  destruct (open_slots_nth _ _ _ _ _ _ A i f Fi) as (o & o' & V & Wn & OS). rewrite (SL ws o' Wn).
  unfold open_slot in OS. rewrite O in OS. destruct o as [x|]; [|assert (o' = None) by congruence; subst o'; exact I].
  rewrite G in OS. pose proof (fun x x' => reopened R u n d k x x' RG) as RO.
  destruct (opener_of R n d k) as [op|] eqn:OP.
  2: { exfalso. destruct n; cbn [opener_of] in OP; rewrite RG in OP; discriminate OP. }
  assert (ONE : forall x x', reopen op x = Ok x' -> object_of_type R u x' /\ (forall l, x' <> VList l)) by (intros; eapply RO; eassumption).
  destruct x; try (cbn in OS; discriminate OS);
    try (destruct (reopen op _) as [x'| | |] eqn:Q; cbn in OS; try discriminate OS; assert (o' = Some x') by congruence; subst o';
         destruct (ONE _ _ Q) as [Q1 Q2]; destruct x'; try exact Q1; exfalso; eapply Q2; reflexivity).
  apply rbind_ok in OS. destruct OS as (l' & Q & OS). assert (o' = Some (VList l')) by congruence. subst o'. cbn [filled_by].
  clear - Q ONE. match type of Q with rmap _ ?l0 = _ => revert l' Q; generalize l0 end. intros l. induction l as [|z l IH]; intros l' Q; cbn [rmap] in Q.
  - assert (l' = []) by congruence. subst. constructor.
  - apply rbind_ok in Q. destruct Q as (z' & Q1 & Q). apply rbind_ok in Q. destruct Q as (r & Q2 & Q). assert (l' = z' :: r) by congruence. subst l'.
    constructor; [exact (proj1 (ONE _ _ Q1))|exact (IH r Q2)].
Qed.

End codec.
