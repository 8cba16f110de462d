(** DEFAULT and mandatory components in encodings. *)
From Coq Require Import List String ZArith NArith Bool Lia.
From Verif Require Import Asn1.Types Py.Eval Asn1.EqbFacts Asn1.Bytes Asn1.Der Asn1.Wf Asn1.RoundTrip Asn1.RoundTrip2 Asn1.Open.
Import ListNotations.
Open Scope string_scope.
Open Scope list_scope.

Section codec.
Context {Cdc : codec}.

(** Slot [w] is slot [v], or [v] holds the default of the component and [w] is empty. *)
Definition default_omitted (f : field) (v w : option aval) : Prop :=
  v = w \/ (fpres f = Def /\ v <> None /\ fdef f = v /\ w = None).

Inductive slots3 (R : field -> option aval -> option aval -> Prop) : list field -> list (option aval) -> list (option aval) -> Prop :=
| s3_nil : slots3 R [] [] []
| s3_cons : forall f fs v vs w ws, R f v w -> slots3 R fs vs ws -> slots3 R (f :: fs) (v :: vs) (w :: ws).

Lemma enc_fields_defaults : forall fs vs ws, slots3 default_omitted fs vs ws -> enc_fields vs fs = enc_fields ws fs.
Proof.
  intros fs vs ws H. induction H as [|[n p t d o] fs v vs w ws R H IH]; [reflexivity|].
  cbn [enc_fields]. fold enc_fields. rewrite IH. destruct R as [->|(P & V & D & ->)]; [reflexivity|].
  cbn [fpres fdef] in *. subst p. destruct v as [x|]; [|congruence]. subst d. rewrite (proj2 eqb_refl x). reflexivity.
Qed.

Theorem default_not_encoded : forall isset m fs vs ws, ctruthy (spec m) = false -> slots3 default_omitted fs vs ws ->
  encode (TSeq isset m fs) (VSeq vs) = encode (TSeq isset m fs) (VSeq ws).
Proof.
  intros isset m fs vs ws C H. unfold encode. rewrite !enc_seq_eq, C. cbn [andb]. rewrite (enc_fields_defaults _ _ _ H). reflexivity.
Qed.

Corollary default_restored : forall isset m fs vs ws bs rest, ctruthy (spec m) = false -> wf (TSeq isset m fs) = true ->
  slots3 default_omitted fs vs ws -> conf None (TSeq isset m fs) (VSeq vs) = true ->
  encode (TSeq isset m fs) (VSeq ws) = Ok bs -> decode (TSeq isset m fs) (bs ++ rest) = Ok (VSeq vs, rest).
Proof.
  intros isset m fs vs ws bs rest C W H V E. rewrite <- (default_not_encoded _ _ _ _ _ C H) in E.
  exact (plain_round_trip _ _ _ rest W V E).
Qed.

(** ** Absent mandatory components *)

(** A mandatory component whose schema object carries a value. *)
Definition prefilled (f : field) : Prop := (exists k m, ftype f = TPrim k m) /\ fdef f <> None.
(** Types whose objects encode although nothing was ever assigned to them: NULL, an
    unconstrained SEQUENCE OF or SET OF, an unconstrained SEQUENCE or SET all of whose
    mandatory components are such or carry a value. *)
Inductive unassigned_ok : asn1 -> Prop :=
| un_null : forall m, unassigned_ok (TPrim KNull m)
| un_of : forall s m e, ctruthy (spec m) = false -> unassigned_ok (TOf s m e)
| un_seq : forall s m fs, ctruthy (spec m) = false -> (forall f, In f fs -> fpres f = Req -> ~ prefilled f -> unassigned_ok (ftype f)) ->
    unassigned_ok (TSeq s m fs).

Definition absent_fields : list field -> res (list (list tag * bytes)) :=
  fix go (fs : list field) : res (list (list tag * bytes)) :=
          match fs with
          | [] => Ok []
          | Fld _ p t' d _ :: fs' =>
              let! r := go fs' in
              match p with
              | Req => let! c := match enc_kept t' d with Some c => c | None => enc_absent false t' end in Ok ((tags (meta_of t'), c) :: r)
              | _ => Ok r
              end
          end.
Lemma kept_prefilled : forall n p t d o, ~ prefilled (Fld n p t d o) -> enc_kept t d = None.
Proof.
  intros n p t d o H. destruct t as [k m| | |]; try reflexivity. destruct d as [v|]; [|reflexivity].
  exfalso. apply H. split; [exists k, m; reflexivity|discriminate].
Qed.
Lemma enc_absent_only : forall t ine bs, enc_absent ine t = Ok bs -> unassigned_ok t.
Proof.
  induction t as [k m|s m fs IH|s m t IH|s m|m fs IH] using asn1_ind2; intros ine bs H.
  - destruct k; try discriminate. constructor.
  - cbn [enc_absent] in H. fold absent_fields in H. destruct (ctruthy (spec m)) eqn:C; [discriminate|]. constructor; [exact C|].
    apply rbind_ok in H. destruct H as (cs & H & _). revert cs H. induction fs as [|[n p t d o] fs IHf]; intros cs H f I; [destruct I|].
    inversion IH as [|? ? P1 P2]; subst. cbn [absent_fields] in H. fold absent_fields in H. apply rbind_ok in H. destruct H as (r & A & H).
    destruct I as [<-|I]; [|exact (IHf P2 _ A f I)]. cbn [fpres ftype]. intros -> NP. apply rbind_ok in H. destruct H as (c & B & _).
    rewrite (kept_prefilled _ _ _ _ _ NP) in B. exact (P1 _ _ B).
  - cbn [enc_absent] in H. destruct (ctruthy (spec m)) eqn:C; [discriminate|]. constructor; exact C.
  - cbn [enc_absent] in H. destruct (ctruthy (spec m)) eqn:C; [discriminate|]. constructor; exact C.
  - discriminate.
Qed.

(** Encoding a SEQUENCE or SET without one of its mandatory components fails unless the
    component's type is of that kind or its schema object carries a value. *)
Theorem missing_mandatory : forall isset m fs vs bs, encode (TSeq isset m fs) (VSeq vs) = Ok bs ->
  forall i f, nth_error fs i = Some f -> nth_error vs i = Some None -> fpres f = Req -> ~ prefilled f -> unassigned_ok (ftype f).
Proof.
  intros isset m fs vs bs H i f F V R NP. unfold encode in H. rewrite enc_seq_eq in H.
  destruct (ctruthy (spec m) && negb (csat (fnames fs) (spec m) (VSeq vs))); [discriminate|].
  apply rbind_ok in H. destruct H as (cs & H & _). revert vs cs i H F V.
  induction fs as [|[n p t d o] fs IH]; intros [|v vs] cs [|i] H F V; try discriminate; cbn [nth_error] in F, V;
    cbn [enc_fields] in H; fold enc_fields in H; apply rbind_ok in H; destruct H as (r & A & H).
  - assert (v = None) by congruence. subst v. assert (f = Fld n p t d o) by congruence. subst f. cbn [fpres ftype] in *. subst p.
    apply rbind_ok in H. destruct H as (c & B & _). rewrite (kept_prefilled _ _ _ _ _ NP) in B. exact (enc_absent_only _ _ _ B).
  - exact (IH _ _ _ A F V).
Qed.

End codec.
