(** Consequences for import histories, in the form used by Props/ImportProps.v. *)
From Coq Require Import List String ZArith NArith Bool Lia.
From Verif Require Import Py.Syntax Asn1.Types Py.Eval Py.Mono Asn1.EqbFacts Gen.All
  Load.Import Load.ImportFacts Load.Table Load.Computed Load.Registry.
Import ListNotations.
Open Scope string_scope.
Open Scope list_scope.

Opaque all_modules T table nesting.

(** What [m.x] denotes in world [W]. *)
Definition attribute (W : world) (m x : string) : option pyval :=
  match loaded W m with Some R => lookup (m_ns R) x | None => None end.

Lemma foldM_app : forall {A B} (f : A -> B -> r A) l1 l2 a,
  foldM f (l1 ++ l2) a = do a' <- foldM f l1 a; foldM f l2 a'.
Proof.
  intros A B f. induction l1 as [|b l1 IH]; intros l2 a; cbn [foldM app]; [reflexivity|].
  destruct (f a b); cbn; [apply IH|reflexivity|reflexivity].
Qed.

Lemma session_ok : forall h, (forall m, In m h -> In m module_names) -> exists W, session h = OK W.
Proof. intros h H. exact (session_ok_from h empty good_empty H). Qed.

Lemma loaded_iff : forall h W n, session h = OK W -> (loaded W n <> None <-> exists m, In m h /\ reach m n).
Proof.
  intros h W n E. destruct (session_facts _ _ _ E good_empty) as (G & _ & L & N & _). split.
  - intro H. exact (N n eq_refl H).
  - intros (m & Hm & R). exact (good_closed _ G _ _ R (L _ Hm)).
Qed.

Lemma import_loaded : forall f ld W n, loaded W n <> None -> import (S f) ld W n = OK W.
Proof. intros f ld W n H. cbn [import]. destruct (loaded W n); [reflexivity|congruence]. Qed.

Lemma nesting_S : exists f, nesting = S f. Proof. exists 19%nat. reflexivity. Qed.

Lemma reimport : forall h W n, session h = OK W -> loaded W n <> None -> session (h ++ [n]) = OK W.
Proof.
  intros h W n E H. destruct nesting_S as [f Ef].
  pose proof (foldM_app (import nesting []) h [n] empty) as K.
  change (session h) with (foldM (import nesting []) h empty) in E. rewrite E in K.
  change (session (h ++ [n])) with (foldM (import nesting []) (h ++ [n]) empty). rewrite K.
  assert (I : import nesting [] W n = OK W) by (rewrite Ef; exact (import_loaded f [] W n H)).
  cbn [foldM bind]. rewrite I. reflexivity.
Qed.

Lemma reimports : forall h2 h W, session h = OK W -> (forall n, In n h2 -> loaded W n <> None) ->
  session (h ++ h2) = OK W.
Proof.
  induction h2 as [|n h2 IH]; intros h W E H.
  - rewrite app_nil_r. exact E.
  - change (n :: h2) with ([n] ++ h2). rewrite app_assoc. apply IH.
    + apply reimport; [exact E|apply H; left; reflexivity].
    + intros k Hk. apply H. right; exact Hk.
Qed.

Lemma session_split : forall h h2 W2, session (h ++ h2) = OK W2 ->
  exists W, session h = OK W /\ ext (loaded W) (loaded W2).
Proof.
  intros h h2 W2 E.
  pose proof (foldM_app (import nesting []) h h2 empty) as K.
  change (session (h ++ h2)) with (foldM (import nesting []) (h ++ h2) empty) in E. rewrite E in K.
  destruct (foldM (import nesting []) h empty) as [W| |] eqn:E1; cbn in K; try discriminate.
  exists W. split; [exact E1|].
  destruct (session_facts _ _ _ E1 good_empty) as (G & _).
  destruct (session_facts _ _ _ (eq_sym K) G) as (_ & X & _). exact X.
Qed.

Lemma history_independent : forall h1 h2 W1 W2 m R1 R2, session h1 = OK W1 -> session h2 = OK W2 ->
  loaded W1 m = Some R1 -> loaded W2 m = Some R2 -> R1 = R2.
Proof.
  intros h1 h2 W1 W2 m R1 R2 E1 E2 A B.
  pose proof (loaded_finished _ _ _ _ E1 A). pose proof (loaded_finished _ _ _ _ E2 B). congruence.
Qed.

Lemma attribute_independent : forall h1 h2 W1 W2 m x, session h1 = OK W1 -> session h2 = OK W2 ->
  loaded W1 m <> None -> loaded W2 m <> None -> attribute W1 m x = attribute W2 m x.
Proof.
  intros h1 h2 W1 W2 m x E1 E2 A B. unfold attribute.
  destruct (loaded W1 m) as [R1|] eqn:L1; [|congruence]. destruct (loaded W2 m) as [R2|] eqn:L2; [|congruence].
  rewrite (history_independent _ _ _ _ _ _ _ E1 E2 L1 L2). reflexivity.
Qed.

Lemma later_imports_keep : forall h h2 W W2 m R, session h = OK W -> session (h ++ h2) = OK W2 ->
  loaded W m = Some R -> loaded W2 m = Some R.
Proof.
  intros h h2 W W2 m R E E2 L. destruct (session_split _ _ _ E2) as (W' & E' & X).
  rewrite E in E'. inversion E'; subst W'. exact (X _ _ L).
Qed.

Lemma registry_keeps : forall h h2 W W2 d k v, session h = OK W -> session (h ++ h2) = OK W2 ->
  reg_get W d k = Some v ->
  exists w, reg_get W2 d k = Some w /\ (~ In (d, k) (order_dependent ++ overridden) -> w = v).
Proof.
  intros h h2 W W2 d k v E E2 G.
  destruct (reg_get_registered _ _ _ _ _ E G) as (m & L & R).
  assert (L2 : loaded W2 m <> None).
  { destruct (loaded W m) as [Q|] eqn:EQ; [|congruence]. rewrite (later_imports_keep _ _ _ _ _ _ E E2 EQ). discriminate. }
  destruct (registered_present _ _ _ _ _ _ E2 L2 R) as [w Hw]. exists w. split; [exact Hw|].
  intro N. destruct (reg_get_registered _ _ _ _ _ E2 Hw) as (n & _ & R').
  exact (registers_unique _ _ _ _ _ _ R' R N).
Qed.

Lemma text_registered : forall h W m p t ke ve, session h = OK W -> loaded W m <> None ->
  lookup all_modules m = Some p -> In (t, (ke, ve)) (registrations p) ->
  exists d kv vv k v w, eval_in W m t = OK (PDict d) /\ eval_in W m ke = OK kv /\ as_key kv = Some k /\
    eval_in W m ve = OK vv /\ as_item vv = Some v /\
    reg_get W d k = Some w /\ (~ In (d, k) (order_dependent ++ overridden) -> w = v).
Proof.
  intros h W m p t ke ve E L Hp Hr.
  destruct (registration_registered _ _ _ _ _ _ _ E L Hp Hr) as (d & kv & vv & k & v & A & B & C & D & F & R).
  destruct (registered_present _ _ _ _ _ _ E L R) as [w Hw].
  exists d, kv, vv, k, v, w. split; [exact A|]. split; [exact B|]. split; [exact D|]. split; [exact C|].
  split; [exact F|]. split; [exact Hw|]. intro N.
  destruct (reg_get_registered _ _ _ _ _ E Hw) as (n & _ & R').
  exact (registers_unique _ _ _ _ _ _ R' R N).
Qed.

Lemma same_modules_same_registries : forall h1 h2 W1 W2, session h1 = OK W1 -> session h2 = OK W2 ->
  (forall m, In m h1 <-> In m h2) ->
  forall d k, ~ In (d, k) order_dependent -> reg_get W1 d k = reg_get W2 d k.
Proof.
  intros h1 h2 W1 W2 E1 E2 H d k N. apply (order_independent h1 h2); try assumption.
  intro m. rewrite (loaded_iff _ _ m E1), (loaded_iff _ _ m E2).
  split; intros (x & A & B); exists x; split; try exact B; apply H, A.
Qed.

Lemma binds_finished : forall m x d, binds_dict T m x d = true ->
  exists R, finished m = Some R /\ lookup (m_ns R) x = Some (PDict d).
Proof.
  intros m x d H. unfold binds_dict in H. unfold finished. rewrite lookup_modres.
  destruct (lookup T m) as [e|]; [|discriminate]. exists (e_res e). split; [reflexivity|].
  destruct (lookup _ x) as [[]|]; try discriminate. apply did_eqb_sound in H. subst. reflexivity.
Qed.

Lemma attribute_finished : forall h W m x R, session h = OK W -> loaded W m <> None -> finished m = Some R ->
  attribute W m x = lookup (m_ns R) x.
Proof.
  intros h W m x R E L F. unfold attribute. destruct (loaded W m) as [R'|] eqn:Q; [|congruence].
  rewrite (loaded_finished _ _ _ _ E Q) in F. inversion F; subst. reflexivity.
Qed.

Lemma reach_trans : forall a b c, reach a b -> reach b c -> reach a c.
Proof.
  intros a b c R. induction R as [m|m p n k H1 H2 R IH]; intro H; [exact H|].
  exact (reach_step _ _ _ _ H1 H2 (IH H)).
Qed.

Lemma rfc6402_needs_rfc5652 : reach "rfc6402" "rfc5652".
Proof.
  destruct T_facts as (_ & _ & _ & _ & _ & K & _).
  destruct (lookup T "rfc6402") as [e|] eqn:E; [|discriminate]. exact (proj1 (T_reach _ _ _ E) K).
Qed.

Lemma cmc_cms_same : forall h W, session h = OK W -> loaded W "rfc6402" <> None ->
  exists d, attribute W "rfc6402" "cmcControlAttributesMap" = Some (PDict d) /\
            attribute W "rfc5652" "cmsAttributesMap" = Some (PDict d).
Proof.
  intros h W E L. destruct T_facts as (_ & _ & _ & K1 & K2 & _).
  apply binds_finished in K1. destruct K1 as (R1 & F1 & K1). apply binds_finished in K2. destruct K2 as (R2 & F2 & K2).
  exists ("rfc5652", "cmsAttributesMap").
  assert (L' : loaded W "rfc5652" <> None).
  { apply (loaded_iff _ _ _ E). apply (loaded_iff _ _ _ E) in L. destruct L as (m & A & B).
    exists m. split; [exact A|]. exact (reach_trans _ _ _ B rfc6402_needs_rfc5652). }
  split; [exact (eq_trans (attribute_finished _ _ _ _ _ E L F1) K1)
         |exact (eq_trans (attribute_finished _ _ _ _ _ E L' F2) K2)].
Qed.

Lemma registry_key : forall h W d k v, session h = OK W -> reg_get W d k = Some v -> key_ok d k = true.
Proof.
  intros h W d k v E H. destruct (reg_get_registered _ _ _ _ _ E H) as (m & _ & R).
  exact (registers_key _ _ _ _ R).
Qed.

(** Only the listed keys ever denote two different types. *)
Lemma two_types_listed : forall h1 h2 W1 W2 d k v1 v2, session h1 = OK W1 -> session h2 = OK W2 ->
  reg_get W1 d k = Some v1 -> reg_get W2 d k = Some v2 -> v1 <> v2 -> In (d, k) (order_dependent ++ overridden).
Proof.
  intros h1 h2 W1 W2 d k v1 v2 E1 E2 A B N.
  destruct (reg_get_registered _ _ _ _ _ E1 A) as (m1 & _ & R1).
  destruct (reg_get_registered _ _ _ _ _ E2 B) as (m2 & _ & R2).
  destruct (existsb (same_key d k) (order_dependent ++ overridden)) eqn:X.
  - apply existsb_exists in X. destruct X as ([d' k'] & Hin & Hs).
    unfold same_key in Hs. apply andb_true_iff in Hs. cbn [fst snd] in Hs. destruct Hs as [Hd Hk].
    apply did_eqb_sound in Hd. apply key_eqb_sound in Hk. subst. exact Hin.
  - exfalso. apply N. apply (registers_unique _ _ _ _ _ _ R1 R2). intro Hin.
    assert (existsb (same_key d k) (order_dependent ++ overridden) = true); [|congruence].
    apply existsb_exists. exists (d, k). split; [exact Hin|]. unfold same_key. cbn [fst snd].
    rewrite did_eqb_refl, key_eqb_refl. reflexivity.
Qed.
