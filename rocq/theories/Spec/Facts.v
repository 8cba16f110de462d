(** What the computation of Spec/Checked.v says about every session. *)
From Coq Require Import List String ZArith NArith Bool Lia.
From Verif Require Import Py.Syntax Asn1.Types Py.Eval Asn1.EqbFacts Gen.All Asn1.Bytes Asn1.Der Asn1.Wf Asn1.RoundTrip2
  Load.Import Load.ImportFacts Load.Table Load.Computed Load.Registry Load.Session Load.Schemas Load.Checked Load.CheckedFacts
  Load.Helper Load.Construct Spec.X680 Spec.X690 Spec.Spelling Spec.Agree Spec.Conform Spec.Leaves Spec.Looser Spec.Reads Spec.Catalogue Spec.Deviations Spec.Oids
  Spec.Associations Spec.Slots Asn1.Inside Spec.Checked Spec.Ber Spec.Accepts Spec.Complete Spec.Own Spec.Meant.
Import ListNotations.
Open Scope string_scope.
Open Scope list_scope.

Opaque all_modules T nesting depth.

Section codec.
Context {Cdc : codec}.

(** ** Asking for less *)

Lemma negb_orb_weaken : forall a b c, implb b a = true -> (negb a || c)%bool = true -> (negb b || c)%bool = true.
Proof. intros [] [] []; cbn; congruence. Qed.
Lemma seq_cons_weaken : forall bd bd' cs ns c, implb bd' bd = true -> seq_cons bd cs ns c = true -> seq_cons bd' cs ns c = true.
Proof.
  intros bd bd' cs ns c I H. unfold seq_cons in *. destruct (ctruthy c); [exact H|]. exact (negb_orb_weaken _ _ _ I H).
Qed.
Lemma agrees_weaken : forall sk nm bd nm' bd', implb nm' nm = true -> implb bd' bd = true ->
  forall s over acc cs t, agrees_but sk nm bd s over acc cs t = true -> agrees_but sk nm' bd' s over acc cs t = true.
Proof.
  intros sk nm bd nm' bd' IN IB s.
  assert (F : forall fs, Forall (fun f => forall over acc cs t, agrees_but sk nm bd (sf_type f) over acc cs t = true -> agrees_but sk nm' bd' (sf_type f) over acc cs t = true) fs ->
    forall gs, agree_fields sk nm bd fs gs = true -> agree_fields sk nm' bd' fs gs = true).
  { induction fs as [|[n p s'] fs IH]; intros HF [|[n' q t' d o] gs] H; try discriminate H; [reflexivity|].
    inversion HF as [|? ? H1 H2]; subst. cbn [agree_fields] in *. fold (agree_fields sk nm bd) in H. fold (agree_fields sk nm' bd').
    rewrite !andb_true_iff in *. destruct H as [[[A B] C] D]. repeat split.
    - exact (negb_orb_weaken _ _ _ IN A).
    - exact B.
    - destruct (spared sk n); [reflexivity|]. exact (H1 _ _ _ _ C).
    - exact (IH H2 gs D). }
  assert (G : forall fs, Forall (fun f => forall over acc cs t, agrees_but sk nm bd (sf_type f) over acc cs t = true -> agrees_but sk nm' bd' (sf_type f) over acc cs t = true) fs ->
    forall gs, agree_alts sk nm bd fs gs = true -> agree_alts sk nm' bd' fs gs = true).
  { induction fs as [|[n p s'] fs IH]; intros HF [|[n' q t' d o] gs] H; try discriminate H; try reflexivity.
    - cbn [agree_alts] in *. exact (negb_orb_weaken _ _ _ IN H).
    - inversion HF as [|? ? H1 H2]; subst. cbn [agree_alts] in *. fold (agree_alts sk nm bd) in H. fold (agree_alts sk nm' bd').
      rewrite !andb_true_iff in *. destruct H as [[A C] D]. repeat split.
      + exact (negb_orb_weaken _ _ _ IN A).
      + destruct (spared sk n); [reflexivity|]. exact (H1 _ _ _ _ C).
      + exact (IH H2 gs D). }
  induction s as [p| |fs IH|fs IH|s IH|s IH|alts IH|c n e s IH|c s IH] using sty_ind2; intros over acc cs t A; cbn [agrees_but] in *.
  - destruct t as [k m| | |]; try discriminate A. rewrite !andb_true_iff in *. destruct A as [[A B] C]. repeat split; try apply A.
    + exact (negb_orb_weaken _ _ _ IN B).
    + exact (negb_orb_weaken _ _ _ IB C).
  - destruct t as [k m| | |]; try discriminate A. destruct k; try discriminate A. rewrite !andb_true_iff in *. destruct A as [A B]. split; [exact A|].
    exact (negb_orb_weaken _ _ _ IB B).
  - destruct t as [|b m gs| |]; try discriminate A. destruct b; try discriminate A.
    rewrite !andb_true_iff in *. destruct A as [[[A1 A2] A3] A4]. repeat split; try assumption; [exact (seq_cons_weaken _ _ _ _ _ IB A2)|exact (F fs IH gs A4)].
  - destruct t as [|b m gs| |]; try discriminate A. destruct b; try discriminate A.
    rewrite !andb_true_iff in *. destruct A as [[[A1 A2] A3] A4]. repeat split; try assumption; [exact (seq_cons_weaken _ _ _ _ _ IB A2)|exact (F fs IH gs A4)].
  - destruct t as [| |b m o|]; try discriminate A. destruct b; try discriminate A. destruct o as [t'|]; try discriminate A.
    rewrite !andb_true_iff in *. destruct A as [[[A1 A2] A3] A4]. repeat split; try assumption; [exact (negb_orb_weaken _ _ _ IB A3)|exact (IH _ _ _ _ A4)].
  - destruct t as [| |b m o|]; try discriminate A. destruct b; try discriminate A. destruct o as [t'|]; try discriminate A.
    rewrite !andb_true_iff in *. destruct A as [[[A1 A2] A3] A4]. repeat split; try assumption; [exact (negb_orb_weaken _ _ _ IB A3)|exact (IH _ _ _ _ A4)].
  - destruct t as [| | |m gs]; try discriminate A. rewrite !andb_true_iff in *. destruct A as [[A1 A2] A3].
    repeat split; try assumption; [exact (negb_orb_weaken _ _ _ IB A2)|exact (G alts IH gs A3)].
  - destruct e; exact (IH _ _ _ _ A).
  - exact (IH _ _ _ _ A).
Qed.

Lemma in_mem2 : forall l q, In q l -> mem2 l q = true.
Proof.
  intros l [a b] I. apply existsb_exists. exists (a, b). split; [exact I|]. cbn [fst snd]. rewrite !String.eqb_refl. reflexivity.
Qed.

(** ** Every session *)

Lemma T_spec_checks : spec_checks T = true.
Proof.
  pose proof spec_computed as K. Transparent T. unfold T. Opaque T.
  destruct (build load_order []) as [T0|]; [exact K|discriminate].
Qed.
Lemma spec_parts : forall T, spec_checks T = true -> forallb conforms (schemas_of T) = true /\
  forallb (shown differs T) deviations = true /\ forallb (shown otherwise_bounded T) loose = true /\
  forallb (implemented T) catalogue = true /\ forallb (registered_as (respelt registered)) (schemas_of T) = true /\
  forallb (class_in T) snmp_types = true /\ helpers_ok T = true.
Proof.
  intros T K. unfold spec_checks in K. cbv zeta in K. do 15 (apply andb_true_iff in K; destruct K as [?H K]).
  assert (SP : forall A (f g : A -> bool) l, forallb (fun q => f q && g q) l = true -> forallb f l = true /\ forallb g l = true).
  { intros A f g l. induction l as [|a l IH]; cbn; [split; reflexivity|]. rewrite !andb_true_iff. intros [[F G] L].
    destruct (IH L). repeat split; assumption. }
  destruct (SP _ _ _ _ H) as [HA HB]. repeat split; assumption.
Qed.
Definition T_spec := spec_parts T T_spec_checks.
Lemma spec_more : forall T, spec_checks T = true -> forallb (shown refuses T) (filter (fun e => mem2 tight (fst e)) loose) = true /\
  assoc_checks T = true /\ forallb slots_well (schemas_of T) = true /\ forallb (slot_in T) (slots ++ misplaced) = true /\
  forallb (closed_in T) unopened = true /\ carry_checks T = true /\ forallb exactly (schemas_of T) = true /\
  forallb (shown widens T) widening = true /\ forallb owned (schemas_of T) = true /\
  forallb spelt (schemas_of T) = true.
Proof. intros T K. unfold spec_checks in K. cbv zeta in K. do 15 (apply andb_true_iff in K; destruct K as [?H K]). repeat split; assumption. Qed.
Definition T_more := spec_more T T_spec_checks.

Lemma tight_loose : forall q, In q tight -> In q loose_types.
Proof.
  assert (K : forallb (mem2 loose_types) tight = true) by (vm_compute; reflexivity).
  intros q I. exact (mem2_in _ _ (proj1 (forallb_forall _ _) K q I)).
Qed.
Lemma definition_defaults : forall m x s, definition m x = Some s -> defaults_whole s = true.
Proof.
  assert (K : forallb (fun d : string * definitions => forallb (fun e : string * sty => defaults_whole (snd e)) (snd d)) catalogue = true) by (vm_compute; reflexivity).
  intros m x s D. unfold definition, defined in D. destruct (find _ catalogue) as [[m' d]|] eqn:F; [|discriminate D]. apply find_some in F. destruct F as [F _].
  pose proof (proj1 (forallb_forall _ _) K _ F) as K2. cbv beta in K2. cbn [snd] in K2. destruct (find _ d) as [[x' s']|] eqn:G; [|discriminate D].
  apply find_some in G. destruct G as [G _]. injection D as <-. exact (proj1 (forallb_forall _ _) K2 _ G).
Qed.

Section type.
  Variables (h : list string) (W : world) (m x : string).
  Hypothesis E : session h = OK W.

  Lemma type_conforms : forall t o, schema W m x = Some (t, o) -> conforms ((m, x), (t, o)) = true.
  Proof. intros t o HS. exact (schema_all T_chains conforms (proj1 T_spec) h W m x (t, o) E HS). Qed.

  (** Nothing is left out. *)
  Lemma type_defined : forall t, schema W m x = Some (t, None) -> definition m x <> None \/ In (m, x) homemade.
  Proof.
    intros t HS. pose proof (type_conforms t None HS) as K. cbn [conforms fst snd] in K.
    destruct (definition m x); [left; discriminate|right; exact (mem2_in _ _ K)].
  Qed.
  (** Every definition of a loaded module is implemented. *)
  Lemma type_implemented : forall s, definition m x = Some s -> loaded W m <> None -> exists t, schema W m x = Some (t, None).
  Proof.
    intros s D L. rewrite (schema_eq T_chains h W m x E L).
    unfold definition in D. destruct (find _ catalogue) as [[m' d]|] eqn:F; [|discriminate]. apply find_some in F. destruct F as [F EM].
    cbn [fst] in EM. apply String.eqb_eq in EM. subst m'.
    pose proof (proj1 (forallb_forall _ _) (proj1 (proj2 (proj2 (proj2 T_spec)))) _ F) as K. unfold implemented in K. cbn [fst snd] in K.
    unfold defined in D. destruct (find _ d) as [[x' s']|] eqn:G; [|discriminate]. apply find_some in G. destruct G as [G EX].
    cbn [fst] in EX. apply String.eqb_eq in EX. subst x'. pose proof (proj1 (forallb_forall _ _) K _ G) as K2. cbv beta in K2. cbn [fst] in K2.
    destruct (schema_in T m x) as [[t [v|]]|]; try discriminate K2. exists t. reflexivity.
  Qed.

  Variables (s : sty) (t : asn1).
  Hypothesis D : definition m x = Some s.
  Hypothesis HS : schema W m x = Some (t, None).

  Lemma type_agrees : agrees true true s None [] [] t = true \/ In (m, x) deviating \/
    (has_wire s t = true /\ (has_bounds s t = true \/ (In (m, x) loose_types /\ (looser s [] t = true \/ In (m, x) tight))) /\ (has_names s t = true \/ In (m, x) renamed)).
  Proof.
    pose proof (type_conforms t None HS) as K. cbn [conforms fst snd] in K. rewrite D in K.
    destruct (agrees true true s None [] [] t); [left; reflexivity|]. right.
    destruct (mem2 deviating (m, x)) eqn:DV; [left; exact (mem2_in _ _ DV)|]. right.
    rewrite !andb_true_iff, !orb_true_iff in K. destruct K as [[A B] C]. repeat split; [exact A| |].
    - destruct B as [B|B]; [left; exact B|right]. apply andb_true_iff in B. destruct B as [B1 B2]. split; [exact (mem2_in _ _ B1)|].
      apply orb_true_iff in B2. destruct B2 as [B2|B2]; [left; exact B2|right; exact (mem2_in _ _ B2)].
    - destruct C as [C|C]; [left; exact C|right; exact (mem2_in _ _ C)].
  Qed.
  (** What is left of the deviating types. *)
  Lemma type_confined : In (m, x) deviating -> agrees true true s None [] [] t = true \/
    match exempted (m, x) with
    | Some sk => agrees_but sk (negb (mem2 renamed (m, x))) false s None [] [] t = true /\ (looser_but sk s [] t = true \/ In (m, x) confined_tight)
    | None => In (m, x) unconfined
    end.
  Proof.
    intro DV. pose proof (type_conforms t None HS) as K. cbn [conforms fst snd] in K. rewrite D in K.
    destruct (agrees true true s None [] [] t); [left; reflexivity|]. right. rewrite (in_mem2 _ _ DV) in K.
    destruct (exempted (m, x)) as [sk|]; [|exact (mem2_in _ _ K)]. apply andb_true_iff in K. destruct K as [K1 K2]. split; [exact K1|].
    apply orb_true_iff in K2. destruct K2 as [K2|K2]; [left; exact K2|right; exact (mem2_in _ _ K2)].
  Qed.
  Lemma type_wire : ~ In (m, x) deviating -> has_wire s t = true.
  Proof.
    intro N. destruct type_agrees as [A|[A|A]]; [|contradiction|exact (proj1 A)].
    exact (agrees_weaken [] true true false false eq_refl eq_refl _ _ _ _ _ A).
  Qed.
  Lemma type_bounds : ~ In (m, x) deviating -> ~ In (m, x) loose_types -> has_bounds s t = true.
  Proof.
    intros N L. destruct type_agrees as [A|[A|(_ & [A|[A _]] & _)]]; try contradiction; [|exact A].
    exact (agrees_weaken [] true true false true eq_refl eq_refl _ _ _ _ _ A).
  Qed.
  Lemma type_named : ~ In (m, x) deviating -> ~ In (m, x) renamed -> has_names s t = true.
  Proof.
    intros N L. destruct type_agrees as [A|[A|(_ & _ & [A|A])]]; try contradiction; [|exact A].
    exact (agrees_weaken [] true true true false eq_refl eq_refl _ _ _ _ _ A).
  Qed.

  (** What pyasn1 encodes is what X.690 and the RFC say. *)
  Lemma type_encodes_der : ~ In (m, x) deviating -> forall v, has s v = true -> regular false s v = true -> encode t v = huge (DER s v).
  Proof. intros N v. exact (encode_is_der false false s t v (type_wire N)). Qed.
  (** The constraints of the schema object are those of the RFC. *)
  Lemma type_bounded : ~ In (m, x) deviating -> ~ In (m, x) loose_types -> forall v, shaped s v = true -> allowed t v = bounded s v.
  Proof. intros N L v. exact (bounds_are false s t v (type_bounds N L)). Qed.
  (** Or they are implied by them. *)
  Lemma type_accepts : ~ In (m, x) deviating -> ~ In (m, x) tight -> forall v, has s v = true -> allowed t v = true.
  Proof.
    intros N L v H. destruct (has_shaped s v H) as [S B]. destruct type_agrees as [A|[A|(_ & [A|[_ [A|A]]] & _)]]; try contradiction.
    - rewrite (bounds_are true s t v A S). exact B.
    - rewrite (bounds_are false s t v A S). exact B.
    - exact (looser_allows s [] t v A S eq_refl B).
  Qed.
  (** What X.690 and the RFC say, pyasn1 decodes. *)
  Lemma type_reads_der : ~ In (m, x) deviating -> ~ In (m, x) ambiguous_types -> forall v b rest, has s v = true ->
    regular false s v = true -> normal s v -> allowed t v = true -> DER s v = Some b -> decode t (b ++ rest) = Ok (v, rest).
  Proof.
    intros N A v b rest. exact (decode_reads_der false false s t v b rest (type_wire N)
      (type_wf h W m x t None E HS A) (type_open_plain h W m x t None E HS)).
  Qed.
  Lemma type_reads_der_all : ~ In (m, x) deviating -> ~ In (m, x) tight -> ~ In (m, x) ambiguous_types -> forall v b rest, has s v = true ->
    regular false s v = true -> normal s v -> DER s v = Some b -> decode t (b ++ rest) = Ok (v, rest).
  Proof.
    intros N L A v b rest H R NO. exact (type_reads_der N A v b rest H R NO (type_accepts N L v H)).
  Qed.

  Lemma type_exactly : exactly ((m, x), (t, None)) = true.
  Proof. exact (schema_all T_chains exactly (proj1 (proj2 (proj2 (proj2 (proj2 (proj2 (proj2 T_more))))))) h W m x (t, None) E HS). Qed.
  Lemma type_watched : everywhere watched t = true.
  Proof. pose proof type_exactly as K. cbn [exactly] in K. destruct (everywhere watched t); [reflexivity|discriminate K]. Qed.
  Lemma type_alts : ~ In (m, x) deviating -> ~ In (m, x) loose_types -> ~ In (m, x) widened -> exact_alts s t = true.
  Proof.
    intros N L Wd. pose proof type_exactly as K. cbn [exactly fst snd] in K. rewrite D in K. destruct (everywhere watched t); [|discriminate K].
    destruct (mem2 deviating (m, x)) eqn:Q1; [destruct N; exact (mem2_in _ _ Q1)|]. destruct (exact_alts s t); [reflexivity|].
    destruct (mem2 loose_types (m, x)) eqn:Q2; [destruct L; exact (mem2_in _ _ Q2)|]. destruct Wd. exact (mem2_in _ _ K).
  Qed.

  (** What pyasn1 decodes was there, as X.690 and the RFC would have it, but for the liberties of Spec/Ber.v. *)
  Lemma type_sound : ~ In (m, x) deviating -> ~ In (m, x) ambiguous_types -> forall b v rest, forallb is_byte b = true ->
    decode t b = Ok (v, rest) -> exists e, b = e ++ rest /\ taken_for false true s None v e.
  Proof.
    intros N A b v rest. apply (decode_sound false false true s t b v rest (type_wire N)).
    split; [exact (type_wf h W m x t None E HS A)|split; intro K; discriminate K].
  Qed.
  Lemma type_sound_bounds : ~ In (m, x) deviating -> ~ In (m, x) loose_types -> ~ In (m, x) ambiguous_types -> forall b v rest, forallb is_byte b = true ->
    decode t b = Ok (v, rest) -> exists e, b = e ++ rest /\ taken_for true true s None v e.
  Proof.
    intros N L A b v rest. apply (decode_sound false true true s t b v rest (type_bounds N L)).
    split; [exact (type_wf h W m x t None E HS A)|split; intro K; [exact type_watched|discriminate K]].
  Qed.
  (** No more, and no less. *)
  Lemma type_sound_exact : ~ In (m, x) deviating -> ~ In (m, x) loose_types -> ~ In (m, x) widened -> ~ In (m, x) ambiguous_types ->
    forall b v rest, forallb is_byte b = true -> decode t b = Ok (v, rest) -> exists e, b = e ++ rest /\ taken_for true false s None v e.
  Proof.
    intros N L Wd A b v rest. apply (decode_sound false true false s t b v rest (type_bounds N L)).
    split; [exact (type_wf h W m x t None E HS A)|split; intro K; [exact type_watched|exact (type_alts N L Wd)]].
  Qed.
  Lemma type_looser : ~ In (m, x) deviating -> ~ In (m, x) tight -> looser s [] t = true.
  Proof.
    intros N L. destruct type_agrees as [A|[A|(_ & [A|[_ [A|A]]] & _)]]; try contradiction; [| |exact A].
    - exact (bounds_looser true s None [] [] t A).
    - exact (bounds_looser false s None [] [] t A).
  Qed.
  Lemma type_complete : ~ In (m, x) deviating -> ~ In (m, x) tight -> ~ In (m, x) ambiguous_types -> forall e v rest, forallb is_byte e = true ->
    taken_for true false s None v e -> decode t (e ++ rest) = Ok (v, rest).
  Proof.
    intros N L A e v rest. exact (decode_complete false s t e v rest (type_wire N) (type_looser N L) (type_wf h W m x t None E HS A)).
  Qed.
  Lemma type_exact : ~ In (m, x) deviating -> ~ In (m, x) loose_types -> ~ In (m, x) widened -> ~ In (m, x) ambiguous_types ->
    forall b v rest, forallb is_byte b = true -> (decode t b = Ok (v, rest) <-> exists e, b = e ++ rest /\ taken_for true false s None v e).
  Proof.
    intros N L Wd A b v rest O. split; [exact (type_sound_exact N L Wd A b v rest O)|]. intros (e & -> & TK).
    assert (NT : ~ In (m, x) tight) by (intro K; exact (L (tight_loose _ K))). exact (type_complete N NT A e v rest (proj1 (octets_app _ _ O)) TK).
  Qed.
  Lemma type_one_value : ~ In (m, x) deviating -> ~ In (m, x) tight -> ~ In (m, x) ambiguous_types ->
    forall e rest v e' rest' v', forallb is_byte e = true -> forallb is_byte e' = true -> e ++ rest = e' ++ rest' ->
    taken_for true false s None v e -> taken_for true false s None v' e' -> v = v' /\ e = e'.
  Proof.
    intros N L A e rest v e' rest' v' O O' Q TK TK'. pose proof (type_complete N L A e v rest O TK) as D1.
    pose proof (type_complete N L A e' v' rest' O' TK') as D2. rewrite Q in D1. rewrite D2 in D1. injection D1 as -> ->.
    split; [reflexivity|exact (app_inv_tail _ _ _ Q)].
  Qed.
  Lemma type_whole : ~ In (m, x) deviating -> ~ In (m, x) loose_types -> ~ In (m, x) widened -> ~ In (m, x) ambiguous_types ->
    forall b v rest, forallb is_byte b = true -> decode t b = Ok (v, rest) -> whole s v = true.
  Proof.
    intros N L Wd A b v rest O DC. destruct (type_sound_exact N L Wd A b v rest O DC) as (e & _ & TK). exact (taken_whole true s None v e (definition_defaults m x s D) TK).
  Qed.

  (** With the constraints of the schema object in place of the RFC's. *)
  Lemma type_owned : owned ((m, x), (t, None)) = true.
  Proof. exact (schema_all T_chains owned (proj1 (proj2 (proj2 (proj2 (proj2 (proj2 (proj2 (proj2 (proj2 T_more))))))))) h W m x (t, None) E HS). Qed.
  Lemma type_own : ~ In (m, x) deviating -> has_bounds (as_bound s t) t = true /\ (~ In (m, x) more_alternatives -> exact_alts (as_bound s t) t = true).
  Proof.
    intro N. pose proof type_owned as K. cbn [owned fst snd] in K. rewrite D in K. cbv zeta in K.
    destruct (mem2 deviating (m, x)) eqn:Q1; [destruct N; exact (mem2_in _ _ Q1)|]. unfold has_bounds. destruct (agrees false true (as_bound s t) None [] [] t); [|discriminate K].
    split; [reflexivity|]. intro NA. destruct (mem2 more_alternatives (m, x)) eqn:Q2; [destruct NA; exact (mem2_in _ _ Q2)|].
    destruct (exact_alts (as_bound s t) t); [reflexivity|discriminate K].
  Qed.
  Lemma own_sound : ~ In (m, x) deviating -> ~ In (m, x) ambiguous_types -> forall b v rest, forallb is_byte b = true ->
    decode t b = Ok (v, rest) -> exists e, b = e ++ rest /\ taken_for true true (as_bound s t) None v e.
  Proof.
    intros N A b v rest. apply (decode_sound false true true (as_bound s t) t b v rest (proj1 (type_own N))).
    split; [exact (type_wf h W m x t None E HS A)|split; intro K; [exact type_watched|discriminate K]].
  Qed.
  Lemma own_complete : ~ In (m, x) deviating -> ~ In (m, x) ambiguous_types -> forall e v rest, forallb is_byte e = true ->
    taken_for true false (as_bound s t) None v e -> decode t (e ++ rest) = Ok (v, rest).
  Proof.
    intros N A e v rest. pose proof (proj1 (type_own N)) as B.
    exact (decode_complete false (as_bound s t) t e v rest (agrees_weaken [] false true false false eq_refl eq_refl _ _ _ _ _ B) (bounds_looser false (as_bound s t) None [] [] t B) (type_wf h W m x t None E HS A)).
  Qed.
  Lemma own_sound_exact : ~ In (m, x) deviating -> ~ In (m, x) more_alternatives -> ~ In (m, x) ambiguous_types -> forall b v rest, forallb is_byte b = true ->
    decode t b = Ok (v, rest) -> exists e, b = e ++ rest /\ taken_for true false (as_bound s t) None v e.
  Proof.
    intros N NA A b v rest. destruct (type_own N) as [B X]. apply (decode_sound false true false (as_bound s t) t b v rest B).
    split; [exact (type_wf h W m x t None E HS A)|split; intro K; [exact type_watched|exact (X NA)]].
  Qed.
  (** A type that differs from the RFC's in its constraints at most. *)
  Lemma own_exact : ~ In (m, x) deviating -> ~ In (m, x) ambiguous_types -> exists s', strip s' = strip s
    /\ (forall v, shaped s' v = true -> allowed t v = bounded s' v)
    /\ (forall e v rest, forallb is_byte e = true -> taken_for true false s' None v e -> decode t (e ++ rest) = Ok (v, rest))
    /\ (forall b v rest, forallb is_byte b = true -> decode t b = Ok (v, rest) -> exists e, b = e ++ rest /\ taken_for true true s' None v e)
    /\ (~ In (m, x) more_alternatives -> forall b v rest, forallb is_byte b = true -> decode t b = Ok (v, rest) -> exists e, b = e ++ rest /\ taken_for true false s' None v e).
  Proof.
    intros N A. exists (as_bound s t). split; [exact (strip_own s t)|]. split; [intro v; exact (bounds_are false (as_bound s t) t v (proj1 (type_own N)))|].
    split; [exact (own_complete N A)|]. split; [exact (own_sound N A)|]. intro NA. exact (own_sound_exact N NA A).
  Qed.
  Lemma own_whole : ~ In (m, x) deviating -> ~ In (m, x) more_alternatives -> ~ In (m, x) ambiguous_types ->
    forall b v rest, forallb is_byte b = true -> decode t b = Ok (v, rest) -> whole s v = true.
  Proof.
    intros N NA A b v rest O DC. destruct (own_sound_exact N NA A b v rest O DC) as (e & _ & TK). rewrite <- (whole_same s (as_bound s t) v (strip_own s t)).
    refine (taken_whole true (as_bound s t) None v e _ TK). rewrite (defaults_same s (as_bound s t) (strip_own s t)). exact (definition_defaults m x s D).
  Qed.

  (** Confined types. *)
  Variable sk : list exempt.
  Hypothesis DV : In (m, x) deviating.
  Hypothesis EX : exempted (m, x) = Some sk.
  Lemma confined_encodes : forall v, has s v = true -> spares sk s v = true -> regular false s v = true -> encode t v = huge (DER s v).
  Proof.
    intros v H SP R. destruct (type_confined DV) as [A|A].
    - exact (encode_is_der true true s t v A H R).
    - rewrite EX in A. exact (encode_is_der_but _ _ _ s t v (proj1 A) H SP R).
  Qed.
  Lemma confined_accepts : ~ In (m, x) confined_tight -> forall v, has s v = true -> spares sk s v = true -> allowed t v = true.
  Proof.
    intros L v H SP. destruct (has_shaped s v H) as [S B]. destruct (type_confined DV) as [A|A].
    - rewrite (bounds_are true s t v A S). exact B.
    - rewrite EX in A. destruct A as [_ [A|A]]; [|contradiction]. exact (looser_allows_but sk s [] t v A S SP eq_refl B).
  Qed.
  Lemma confined_reads : ~ In (m, x) ambiguous_types -> forall v b rest, has s v = true -> spares sk s v = true ->
    regular false s v = true -> normal s v -> allowed t v = true -> DER s v = Some b -> decode t (b ++ rest) = Ok (v, rest).
  Proof.
    intros N v b rest H SP. pose proof (type_wf h W m x t None E HS N) as WF. pose proof (type_open_plain h W m x t None E HS) as OP.
    destruct (type_confined DV) as [A|A].
    - exact (decode_reads_der true true s t v b rest A WF OP H).
    - rewrite EX in A. exact (decode_reads_der_but _ _ _ s t v b rest (proj1 A) WF OP H SP).
  Qed.
  Lemma confined_sound : ~ In (m, x) ambiguous_types -> forall b v rest, forallb is_byte b = true -> decode t b = Ok (v, rest) ->
    leaves sk s v = true -> exists e, b = e ++ rest /\ taken_for false true s None v e.
  Proof.
    intros N b v rest O DC LV. pose proof (type_wf h W m x t None E HS N) as WF.
    assert (RG : rig false true s t) by (split; [exact WF|split; intro K; discriminate K]). destruct (type_confined DV) as [A|A].
    - exact (decode_sound _ false true s t b v rest (agrees_weaken [] true true false false eq_refl eq_refl _ _ _ _ _ A) RG O DC).
    - rewrite EX in A. exact (decode_sound_but sk _ false true s t b v rest (proj1 A) RG O DC LV).
  Qed.
  Lemma confined_complete : ~ In (m, x) ambiguous_types -> ~ In (m, x) confined_tight -> forall e v rest, forallb is_byte e = true ->
    taken_for true false s None v e -> leaves sk s v = true -> decode t (e ++ rest) = Ok (v, rest).
  Proof.
    intros N L e v rest O TK LV. pose proof (type_wf h W m x t None E HS N) as WF. destruct (type_confined DV) as [A|A].
    - exact (decode_complete _ s t e v rest (agrees_weaken [] true true false false eq_refl eq_refl _ _ _ _ _ A) (bounds_looser true s None [] [] t A) WF O TK).
    - rewrite EX in A. destruct A as [A [B|B]]; [|contradiction]. exact (decode_complete_but sk _ s t e v rest A B WF O TK LV).
  Qed.
  Lemma confined_tight_inexact : In (m, x) confined_tight -> In (m, x) inexact.
  Proof. intro K. apply in_or_app. left. exact K. Qed.
  Lemma confined_exact : ~ In (m, x) ambiguous_types -> ~ In (m, x) inexact -> forall b v rest, forallb is_byte b = true -> leaves sk s v = true ->
    (decode t b = Ok (v, rest) <-> exists e, b = e ++ rest /\ taken_for true false s None v e).
  Proof.
    intros N L b v rest O LV. pose proof (type_wf h W m x t None E HS N) as WF. split.
    - intro DC. pose proof type_exactly as K. cbn [exactly fst snd] in K. rewrite D in K. destruct (everywhere watched t) eqn:WA; [|discriminate K].
      rewrite (in_mem2 _ _ DV), EX in K. destruct (mem2 inexact (m, x)) eqn:Q; [destruct L; exact (mem2_in _ _ Q)|].
      destruct (exact_alts s t) eqn:XA; [|discriminate K].
      refine (decode_sound_but sk false true false s t b v rest K _ O DC LV). split; [exact WF|split; intros _; [exact WA|exact XA]].
    - intros (e & -> & TK). exact (confined_complete N (fun C => L (confined_tight_inexact C)) e v rest (proj1 (octets_app _ _ O)) TK LV).
  Qed.
  Lemma confined_own : ~ In (m, x) ambiguous_types -> ~ In (m, x) more_alternatives -> exists s', strip s' = strip s /\
    forall b v rest, forallb is_byte b = true -> leaves sk s v = true -> (decode t b = Ok (v, rest) <-> exists e, b = e ++ rest /\ taken_for true false s' None v e).
  Proof.
    intros N NA. exists (as_bound s t). split; [exact (strip_own s t)|]. intros b v rest O LV. pose proof (type_wf h W m x t None E HS N) as WF.
    pose proof type_owned as K. cbn [owned fst snd] in K. rewrite D in K. cbv zeta in K. rewrite (in_mem2 _ _ DV), EX in K.
    destruct (agrees_but sk false true (as_bound s t) None [] [] t) eqn:AG; [|discriminate K]. destruct (looser_but sk (as_bound s t) [] t) eqn:LO; [|discriminate K].
    destruct (mem2 more_alternatives (m, x)) eqn:Q2; [destruct NA; exact (mem2_in _ _ Q2)|]. destruct (exact_alts (as_bound s t) t) eqn:XA; [|discriminate K]. clear K.
    rewrite <- (leaves_same sk s (as_bound s t) v (strip_own s t)) in LV. split.
    - intro DC. refine (decode_sound_but sk false true false (as_bound s t) t b v rest AG _ O DC LV). split; [exact WF|split; intros _; [exact type_watched|exact XA]].
    - intros (e & -> & TK).
      exact (decode_complete_but sk false (as_bound s t) t e v rest (agrees_weaken sk false true false false eq_refl eq_refl _ _ _ _ _ AG) LO WF (proj1 (octets_app _ _ O)) TK LV).
  Qed.
End type.

(** ** Whatever the RFCs say *)

Section any_object.
  Variables (h : list string) (W : world) (m x : string) (t : asn1) (o : option aval).
  Hypothesis E : session h = OK W.
  Hypothesis HS : schema W m x = Some (t, o).
  Hypothesis N : ~ In (m, x) unspelt.
  Lemma object_spelt : agrees true true (meant t) None [] [] t = true /\ exact_alts (meant t) t = true /\ (~ In (m, x) odd_defaults -> defaults_whole (meant t) = true).
  Proof.
    pose proof (schema_all T_chains spelt (proj2 (proj2 (proj2 (proj2 (proj2 (proj2 (proj2 (proj2 (proj2 T_more))))))))) h W m x (t, o) E HS) as K.
    cbn [spelt] in K. cbv zeta in K. destruct (mem2 unspelt (m, x)) eqn:Q; [destruct N; exact (mem2_in _ _ Q)|].
    destruct (agrees true true (meant t) None [] [] t); [|discriminate K]. destruct (exact_alts (meant t) t); [|discriminate K]. repeat split.
    intro NO. destruct (defaults_whole (meant t)); [reflexivity|]. destruct NO. exact (mem2_in _ _ K).
  Qed.
  Lemma object_watched : everywhere watched t = true.
  Proof.
    pose proof (schema_all T_chains exactly (proj1 (proj2 (proj2 (proj2 (proj2 (proj2 (proj2 T_more))))))) h W m x (t, o) E HS) as K.
    cbn [exactly] in K. destruct (everywhere watched t); [reflexivity|discriminate K].
  Qed.
  Lemma object_encodes : forall v, has (meant t) v = true -> regular false (meant t) v = true -> encode t v = huge (DER (meant t) v).
  Proof. intro v. exact (encode_is_der true true (meant t) t v (proj1 object_spelt)). Qed.
  Lemma object_bounds : forall v, shaped (meant t) v = true -> allowed t v = bounded (meant t) v.
  Proof. intro v. exact (bounds_are true (meant t) t v (proj1 object_spelt)). Qed.
  Hypothesis A : ~ In (m, x) ambiguous_types.
  Lemma object_complete : forall e v rest, forallb is_byte e = true -> taken_for true false (meant t) None v e -> decode t (e ++ rest) = Ok (v, rest).
  Proof.
    intros e v rest. pose proof (proj1 object_spelt) as B.
    exact (decode_complete false (meant t) t e v rest (agrees_weaken [] true true false false eq_refl eq_refl _ _ _ _ _ B) (bounds_looser true (meant t) None [] [] t B) (type_wf h W m x t o E HS A)).
  Qed.
  Lemma object_sound : forall b v rest, forallb is_byte b = true -> decode t b = Ok (v, rest) -> exists e, b = e ++ rest /\ taken_for true false (meant t) None v e.
  Proof.
    intros b v rest. destruct object_spelt as (B & X & _). apply (decode_sound true true false (meant t) t b v rest B).
    split; [exact (type_wf h W m x t o E HS A)|split; intros _; [exact object_watched|exact X]].
  Qed.
  Lemma object_exact : forall b v rest, forallb is_byte b = true -> (decode t b = Ok (v, rest) <-> exists e, b = e ++ rest /\ taken_for true false (meant t) None v e).
  Proof.
    intros b v rest O. split; [exact (object_sound b v rest O)|]. intros (e & -> & TK). exact (object_complete e v rest (proj1 (octets_app _ _ O)) TK).
  Qed.
  Lemma object_reads : forall v b rest, has (meant t) v = true -> regular false (meant t) v = true -> normal (meant t) v -> DER (meant t) v = Some b ->
    decode t (b ++ rest) = Ok (v, rest).
  Proof.
    intros v b rest H R NO. destruct (has_shaped (meant t) v H) as [S B].
    refine (decode_reads_der true true (meant t) t v b rest (proj1 object_spelt) (type_wf h W m x t o E HS A) (type_open_plain h W m x t o E HS) H R NO _).
    rewrite (object_bounds v S). exact B.
  Qed.
  Lemma object_one_value : forall e rest v e' rest' v', forallb is_byte e = true -> forallb is_byte e' = true -> e ++ rest = e' ++ rest' ->
    taken_for true false (meant t) None v e -> taken_for true false (meant t) None v' e' -> v = v' /\ e = e'.
  Proof.
    intros e rest v e' rest' v' O O' Q TK TK'. pose proof (object_complete e v rest O TK) as D1.
    pose proof (object_complete e' v' rest' O' TK') as D2. rewrite Q in D1. rewrite D2 in D1. injection D1 as -> ->.
    split; [reflexivity|exact (app_inv_tail _ _ _ Q)].
  Qed.
  Lemma object_whole : ~ In (m, x) odd_defaults -> forall b v rest, forallb is_byte b = true -> decode t b = Ok (v, rest) -> whole (meant t) v = true.
  Proof.
    intros NO b v rest O DC. destruct (object_sound b v rest O DC) as (e & _ & TK). exact (taken_whole true (meant t) None v e (proj2 (proj2 object_spelt) NO) TK).
  Qed.
End any_object.

(** ** Constructors *)

(** Python literals as values. *)
Definition literal (a : pyval) : option aval :=
  match a with
  | Eval.PInt z => Some (VInt z)
  | Eval.PBool b => Some (VBool b)
  | Eval.PBytes b => Some (VOcts b)
  | Eval.PStr s => Some (VText (codes s))
  | _ => None
  end.
Lemma literal_in : forall nm bd s over acc cs k mt a v, agrees nm bd s over acc cs (TPrim k mt) = true -> shaped s v = true ->
  literal a = Some v -> pretty_in k (nvals mt) a = OK v.
Proof.
  intros nm bd s. induction s as [p| |fs IH|fs IH|s IH|s IH|alts IH|c n e s IH|c s IH] using sty_ind2; intros over acc cs k mt a v A S L;
    cbn [agrees shaped] in *; try discriminate A.
  - rewrite !andb_true_iff in A. destruct A as [[[A _] _] _].
    destruct a; try discriminate L; cbn [literal] in L; injection L as <-; destruct p; try discriminate S; destruct k; try discriminate A; try reflexivity.
    destruct b; reflexivity.
  - destruct k; try discriminate A. destruct a; try discriminate L; cbn [literal] in L; injection L as <-; try discriminate S. reflexivity.
  - destruct e; exact (IH _ _ _ _ _ _ _ A S L).
  - exact (IH _ _ _ _ _ _ _ A S L).
Qed.
Lemma type_constructs : forall h W m x s k mt, session h = OK W -> definition m x = Some s -> schema W m x = Some (TPrim k mt, None) ->
  is_class W m x -> ~ In (m, x) deviating -> ~ In (m, x) loose_types -> forall a v, literal a = Some v -> shaped s v = true ->
  call_class W m x [a] = if bounded s v then OK (PInst (TPrim k mt) (Some v)) else Raise "ValueConstraintError".
Proof.
  intros h W m x s k mt E D HS C N NL a v L S. rewrite (call_prim W m x k mt a C HS). unfold mk_prim.
  rewrite (literal_in false false s None [] [] k mt a v (type_wire h W m x E s _ D HS N) S L). cbn [bind].
  pose proof (type_bounded h W m x E s _ D HS N NL v S) as B. cbn [allowed] in B. rewrite B. reflexivity.
Qed.

(** ** Identifiers and functions *)

Lemma oid_registered : forall h W m x t a, session h = OK W -> schema W m x = Some (t, Some (VOid a)) ->
  match registry m x with
  | Some b => if mem2 wrong_oids (m, x) then a <> b else a = b
  | None => In x unknown_oids
  end.
Proof.
  intros h W m x t a E HS.
  pose proof (schema_all T_chains _ (proj1 (proj2 (proj2 (proj2 (proj2 T_spec))))) h W m x _ E HS) as K.
  cbn [registered_as fst snd] in K. unfold registry. destruct (registry_with (respelt registered) m x) as [b|].
  - apply Bool.eqb_prop in K. destruct (mem2 wrong_oids (m, x)); cbn [negb] in K.
    + intros ->. rewrite (list_eqb_refl N.eqb N.eqb_refl b) in K. discriminate K.
    + exact (list_eqb_N a b K).
  - apply existsb_exists in K. destruct K as (y & I & Q). apply String.eqb_eq in Q. subst y. exact I.
Qed.
Lemma oid_right : forall h W m x t a, session h = OK W -> schema W m x = Some (t, Some (VOid a)) ->
  ~ In (m, x) wrong_oids -> ~ In x unknown_oids -> registry m x = Some a.
Proof.
  intros h W m x t a E HS NW NU. pose proof (oid_registered h W m x t a E HS) as K.
  destruct (registry m x) as [b|]; [|contradiction]. destruct (mem2 wrong_oids (m, x)) eqn:Q; [exfalso; exact (NW (mem2_in _ _ Q))|].
  rewrite K. reflexivity.
Qed.
Lemma snmp_class : forall h W m x, session h = OK W -> In (m, x) snmp_types -> loaded W m <> None -> is_class W m x.
Proof.
  intros h W m x E I L. destruct (loaded W m) as [R|] eqn:ER; [|congruence]. clear L.
  pose proof (loaded_finished _ _ _ _ E ER) as F. unfold finished in F. rewrite lookup_modres in F.
  pose proof (proj1 (forallb_forall _ _) (proj1 (proj2 (proj2 (proj2 (proj2 (proj2 T_spec)))))) _ I) as K. unfold class_in in K. cbn [fst snd] in K.
  destruct (lookup T m) as [e|] eqn:ET; [|discriminate F]. assert (HR : e_res e = R) by congruence. rewrite HR in K.
  destruct (lookup (m_ns R) x) as [p|] eqn:EP; [|discriminate K]. destruct p as [| | | | | | | | | | | |c| | | | | | | | | | |]; try discriminate K.
  exists R, c. split; [exact ER|exact EP].
Qed.
Definition function_flattens := helper_flattens (proj2 (proj2 (proj2 (proj2 (proj2 (proj2 T_spec)))))).

(** The exceptions are exceptions in every session. *)
Section shown.
  Variables (h : list string) (W : world) (m x : string) (v : aval).
  Hypothesis E : session h = OK W.
  Hypothesis L : loaded W m <> None.
  Lemma shown_everywhere : forall P l, forallb (shown P T) l = true -> In ((m, x), v) l ->
    exists s t, definition m x = Some s /\ schema W m x = Some (t, None) /\ P s t v = true.
  Proof.
    intros P l A I. pose proof (proj1 (forallb_forall _ _) A _ I) as K. unfold shown in K. cbn [fst snd] in K.
    rewrite (schema_eq T_chains h W m x E L). destruct (definition m x) as [s|]; [|discriminate].
    destruct (schema_in T m x) as [[t [w|]]|]; try discriminate. exists s, t. repeat split. exact K.
  Qed.
  Lemma deviation_shown : In ((m, x), v) deviations -> exists s t, definition m x = Some s /\ schema W m x = Some (t, None) /\ differs s t v = true.
  Proof. exact (shown_everywhere _ _ (proj1 (proj2 T_spec))). Qed.
  Lemma loose_shown : In ((m, x), v) loose -> exists s t, definition m x = Some s /\ schema W m x = Some (t, None) /\ otherwise_bounded s t v = true.
  Proof. exact (shown_everywhere _ _ (proj1 (proj2 (proj2 T_spec)))). Qed.
  Lemma widening_shown : In ((m, x), v) widening -> exists s t b, definition m x = Some s /\ schema W m x = Some (t, None) /\ encode t v = Ok b /\
    decode t b = Ok (v, []) /\ whole s v = false.
  Proof.
    intro I. destruct (shown_everywhere _ _ (proj1 (proj2 (proj2 (proj2 (proj2 (proj2 (proj2 (proj2 T_more)))))))) I) as (s & t & D & HS & K). unfold widens in K.
    exists s, t. destruct (encode t v) as [b| | |]; try discriminate K. destruct (decode t b) as [[w [|]]| | |] eqn:DC; try discriminate K.
    apply andb_true_iff in K. destruct K as [K1 K2]. apply aval_eqb_sound in K1. subst w. apply negb_true_iff in K2. exists b.
    split; [exact D|]. split; [exact HS|]. split; [reflexivity|]. split; [exact DC|exact K2].
  Qed.
End shown.

End codec.
