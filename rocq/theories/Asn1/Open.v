(** Open types: decoding with decodeOpenTypes=True against registries. *)
From Coq Require Import List String ZArith NArith Bool Lia.
From Verif Require Import Asn1.Types Py.Eval Asn1.EqbFacts Asn1.Bytes Asn1.Charset Asn1.Der Asn1.Wf Asn1.RoundTrip Asn1.RoundTrip2.
Import ListNotations.
Open Scope string_scope.
Open Scope N_scope.
Open Scope list_scope.

Section codec.
Context {Cdc : codec}.

(** What the registries hold: registry, key, type object. *)
Definition registry := did -> key -> option asn1.

(** The openType branch of SequenceOrSequenceOfDecoder.valueDecoder: the octets are decoded
    with the registered type, again with decodeOpenTypes; what follows is dropped.  [n]
    bounds the nesting of open types (see [opener_enough]). *)
Fixpoint opener_of (R : registry) (n : nat) : opener :=
  fun d k => match R d k with
             | None => None
             | Some t => Some (match n with
                               | O => fun _ => Unm
                               | S n' => fun b => let! (v, _) := decode_with (Some (opener_of R n')) t b in Ok (VTyped t (Some v))
                               end)
             end.

(** Values of an open component: of the registered type, conforming in turn. *)
Fixpoint opened_of (R : registry) (n : nat) : opened :=
  fun d k => match R d k with
             | None => None
             | Some t => Some (fun x =>
                 match n, x with
                 | S n', VTyped t' (Some y) => asn1_eqb t' t && wf t && conf (Some (opened_of R n')) t y
                 | _, _ => false
                 end)
             end.

Lemma opened_linked : forall R n, linked (Some (opener_of R n)) (Some (opened_of R n)).
Proof.
  intros R n. induction n as [|n IH].
  - intros d k. cbn [opened_of opener_of]. destruct (R d k) as [t|]; [|reflexivity].
    eexists. split; [reflexivity|]. intros x b H. discriminate.
  - intros d k. cbn [opened_of opener_of]. destruct (R d k) as [t|]; [|reflexivity].
    eexists. split; [reflexivity|]. intros x b H P. cbv beta.
    destruct x as [| | | | | | | | | |t' [y|]]; try discriminate.
    apply andb_true_iff in H. destruct H as [H CY]. apply andb_true_iff in H. destruct H as [ET WT].
    apply asn1_eqb_sound in ET. subst t'. cbn [plain1] in P.
    destruct (enc y false false t) as [b'| | |] eqn:E; try discriminate. assert (b' = b) by congruence. subst b'.
    pose proof (round_trip _ _ IH t y b [] WT CY E) as RT. rewrite app_nil_r in RT. rewrite RT. reflexivity.
Qed.

Theorem open_round_trip : forall R n t v bs rest, wf t = true -> conf (Some (opened_of R n)) t v = true ->
  encode t v = Ok bs -> decode_with (Some (opener_of R n)) t (bs ++ rest) = Ok (v, rest).
Proof. intros R n. exact (round_trip _ _ (opened_linked R n)). Qed.

Theorem plain_round_trip : forall t v bs rest, wf t = true -> conf None t v = true ->
  encode t v = Ok bs -> decode t (bs ++ rest) = Ok (v, rest).
Proof. exact (round_trip None None I). Qed.

Theorem plain_encode_total : forall t v, wf t = true -> conf None t v = true -> encode t v = Huge \/ exists bs, encode t v = Ok bs.
Proof. exact (encode_total None None I). Qed.

End codec.
