(** How decoding with decodeOpenTypes depends on what has been imported. *)
From Coq Require Import List String NArith Bool Lia.
From Verif Require Import Py.Syntax Asn1.Types Py.Eval Asn1.EqbFacts Gen.All
  Asn1.Bytes Asn1.Der Asn1.Wf Asn1.Open Asn1.Inside Asn1.OpenDepth Asn1.Opening Asn1.Widening
  Load.Import Load.ImportFacts Load.Table Load.Computed Load.Registry Load.Session Load.Schemas Load.Checked Load.CheckedFacts.
Import ListNotations.
Open Scope string_scope.
Open Scope list_scope.
Opaque T session.

Section codec.
Context {Cdc : codec}.

(** [W] and [W2] hold the same type under each of the 11 keys that denote two types. *)
Definition listed_agree (W W2 : world) : Prop :=
  forall d k u, In (d, k) (order_dependent ++ overridden) -> reg_of W d k = Some u -> reg_of W2 d k = Some u.

Lemma listed_dec : forall d k, In (d, k) (order_dependent ++ overridden) \/ ~ In (d, k) (order_dependent ++ overridden).
Proof.
  intros d k. destruct (existsb (same_key d k) (order_dependent ++ overridden)) eqn:X.
  - left. apply existsb_exists in X. destruct X as ([d' k'] & Hin & Hs). unfold same_key in Hs. apply andb_true_iff in Hs. cbn [fst snd] in Hs.
    destruct Hs as [Hd Hk]. apply did_eqb_sound in Hd. apply key_eqb_sound in Hk. subst. exact Hin.
  - right. intro Hin. assert (existsb (same_key d k) (order_dependent ++ overridden) = true); [|congruence].
    apply existsb_exists. exists (d, k). split; [exact Hin|]. unfold same_key. cbn [fst snd]. rewrite did_eqb_refl, key_eqb_refl. reflexivity.
Qed.

Lemma more_registered : forall h h2 W W2, session h = OK W -> session h2 = OK W2 -> (forall m, loaded W m <> None -> loaded W2 m <> None) ->
  listed_agree W W2 -> fewer (reg_of W) (reg_of W2).
Proof.
  intros h h2 W W2 E E2 L A d k u H. destruct (listed_dec d k) as [X|X]; [exact (A _ _ _ X H)|].
  unfold reg_of in *. destruct (reg_get W d k) as [[t o]|] eqn:G; [|discriminate H].
  destruct (reg_get_registered _ _ _ _ _ E G) as (m & LM & R). destruct (registered_present _ _ _ _ _ _ E2 (L _ LM) R) as [w Hw]. rewrite Hw.
  destruct (reg_get_registered _ _ _ _ _ E2 Hw) as (n & _ & R'). rewrite (registers_unique _ _ _ _ _ _ R' R X). exact H.
Qed.

Theorem more_imports : forall h h2 W W2 m x t o, session h = OK W -> session h2 = OK W2 -> (forall n, loaded W n <> None -> loaded W2 n <> None) ->
  listed_agree W W2 -> schema W m x = Some (t, o) -> forall s v2 rest, decode_open (reg_of W2) t s = Ok (v2, rest) ->
  exists v0 v1, decode t s = Ok (v0, rest) /\ decode_open (reg_of W) t s = Ok (v1, rest) /\ opens_to (reg_of W) t v0 v1 /\ opens_to (reg_of W2) t v0 v2.
Proof.
  intros h h2 W W2 m x t o E E2 L A HS s v2 rest. apply fewer_accepts.
  - intros d k u G. exact (proj1 (registered_ok h2 W2 d k u E2 G)).
  - exact (more_registered _ _ _ _ E E2 L A).
  - exact (type_open_plain h W m x t o E HS).
Qed.

Theorem same_imports : forall h h2 W W2 m x t o, session h = OK W -> session h2 = OK W2 -> (forall n, In n h <-> In n h2) ->
  (forall d k, In (d, k) order_dependent -> reg_of W d k = reg_of W2 d k) -> schema W m x = Some (t, o) ->
  forall s, decode_open (reg_of W) t s = decode_open (reg_of W2) t s.
Proof.
  intros h h2 W W2 m x t o E E2 L A HS s. apply same_registries.
  - intros d k. destruct (existsb (same_key d k) order_dependent) eqn:X.
    + apply existsb_exists in X. destruct X as ([d' k'] & Hin & Hs). unfold same_key in Hs. apply andb_true_iff in Hs. cbn [fst snd] in Hs.
      destruct Hs as [Hd Hk]. apply did_eqb_sound in Hd. apply key_eqb_sound in Hk. subst. exact (A _ _ Hin).
    + unfold reg_of. rewrite (same_modules_same_registries h h2 W W2 E E2 L d k); [reflexivity|]. intro Hin.
      assert (existsb (same_key d k) order_dependent = true); [|congruence].
      apply existsb_exists. exists (d, k). split; [exact Hin|]. unfold same_key. cbn [fst snd]. rewrite did_eqb_refl, key_eqb_refl. reflexivity.
  - intros d k u G. exact (proj1 (registered_ok h2 W2 d k u E2 G)).
  - exact (type_open_plain h W m x t o E HS).
Qed.
Lemma schema_same : forall h h2 W W2 m x, session h = OK W -> session h2 = OK W2 -> loaded W m <> None -> loaded W2 m <> None -> schema W m x = schema W2 m x.
Proof. intros h h2 W W2 m x E E2 L L2. exact (eq_trans (schema_is h W m x E L) (eq_sym (schema_is h2 W2 m x E2 L2))). Qed.

End codec.
