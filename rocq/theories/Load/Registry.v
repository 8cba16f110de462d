(** Registries in every reachable state. *)
From Coq Require Import List String ZArith NArith Bool Lia.
From Verif Require Import Py.Syntax Asn1.Types Py.Eval Py.Mono Asn1.EqbFacts Gen.All
  Load.Import Load.ImportFacts Load.Table Load.Computed.
Import ListNotations.
Open Scope string_scope.
Open Scope list_scope.

Opaque all_modules.

Lemma good_empty : good (w_mods empty). Proof. constructor. Qed.
Lemma ordered_empty : ordered empty.
Proof. intros m n _ l1 e l2 E. destruct l1; discriminate. Qed.

Lemma T_built : built T. Proof. exact (proj1 T_checked). Qed.
Lemma T_good : good (modres_of T). Proof. exact (built_good _ T_built). Qed.

(** The finite facts, one by one. *)
Lemma T_facts :
  forallb (fun m => match lookup T m with Some e => Nat.ltb (e_height e) nesting | None => false end) module_names = true /\
  forallb (fun me : string * entry => Nat.ltb (e_height (snd me)) nesting) T = true /\
  registrations_ok T = true /\
  binds_dict T "rfc6402" "cmcControlAttributesMap" ("rfc5652", "cmsAttributesMap") = true /\
  binds_dict T "rfc5652" "cmsAttributesMap" ("rfc5652", "cmsAttributesMap") = true /\
  match lookup T "rfc6402" with Some e => mem "rfc5652" (e_clos e) | None => false end = true /\
  agree_all order_dependent either_early (table_of T) = true /\
  agree_all (order_dependent ++ overridden) (fun _ _ => false) (table_of T) = true /\
  forallb (order_matters_b T (table_of T)) (combine order_dependent culprits) = true /\
  forallb (fun q => match q with (m, (d, (k, v))) => key_ok d k end) (table_of T) = true.
Proof.
  pose proof (proj2 T_checked) as K. revert K. generalize T as t. intros t K. unfold checks in K. cbv zeta in K.
  repeat (apply andb_true_iff in K; let H := fresh "H" in destruct K as [H K]; split; [exact H|]). exact K.
Qed.

Opaque T nesting.

Lemma session_ok_from : forall h W, good (w_mods W) -> (forall m, In m h -> In m module_names) ->
  exists W1, foldM (import nesting []) h W = OK W1.
Proof.
  intros h W G H. apply (session_table T T_built); try assumption.
  - intros m e Hm. destruct T_facts as (_ & K & _). rewrite forallb_forall in K. specialize (K _ Hm).
    apply PeanoNat.Nat.ltb_lt in K. exact K.
  - intros m Hm. destruct T_facts as (K & _). rewrite forallb_forall in K. specialize (K _ Hm).
    destruct (lookup T m); [discriminate|]. discriminate.
Qed.

Lemma loaded_named : forall l, good l -> forall m R, lookup l m = Some R -> In m module_names.
Proof.
  intros l G m R E. destruct (good_entry _ G _ _ E) as (p & S & A & _).
  unfold module_names. clear -A. revert A. generalize all_modules as t.
  induction t as [|[x q] t IH]; intro A; cbn [lookup] in A; [discriminate|].
  destruct (String.eqb m x) eqn:Ex; [left; symmetry; apply String.eqb_eq, Ex|right; auto].
Qed.

Definition finished (m : string) : option modres := lookup (modres_of T) m.

(** The result of executing a module does not depend on the history. *)
Lemma loaded_finished : forall h W m R, session h = OK W -> loaded W m = Some R -> finished m = Some R.
Proof.
  intros h W m R E H.
  destruct (session_facts _ _ _ E good_empty) as (G & _).
  pose proof (loaded_named _ G _ _ H) as Hm.
  assert (L : finished m <> None).
  { unfold finished. rewrite lookup_modres. destruct T_facts as (K & _). rewrite forallb_forall in K. specialize (K _ Hm).
    destruct (lookup T m); discriminate. }
  destruct (finished m) as [R'|] eqn:E'; [|congruence].
  f_equal. symmetry. exact (good_agree _ G _ T_good _ _ _ H E').
Qed.

(** [registers m d k v]: executing module [m] binds key [k] of registry [d] to [v]. *)
Definition registers (m : string) (d : did) (k : key) (v : asn1 * option aval) : Prop :=
  exists R its, finished m = Some R /\ In (d, its) (m_log R) /\ In (k, v) its.

(** ** Lookups *)

Lemma item_get_in : forall its k v, item_get its k = Some v -> In (k, v) its.
Proof.
  induction its as [|[k' v'] its IH]; intros k v E; cbn [item_get] in E; [discriminate|].
  destruct (item_get its k) as [w|] eqn:E1.
  - right. apply IH. congruence.
  - destruct (key_eqb k k') eqn:Ek; [|discriminate]. apply key_eqb_sound in Ek. left. congruence.
Qed.

Lemma item_get_some : forall its k v, In (k, v) its -> item_get its k <> None.
Proof.
  induction its as [|[k' v'] its IH]; intros k v H; [destruct H|]. cbn [item_get].
  destruct H as [H|H].
  - inversion H; subst. rewrite key_eqb_refl. destruct (item_get its k); discriminate.
  - specialize (IH _ _ H). destruct (item_get its k); [discriminate|congruence].
Qed.

Lemma item_get_app : forall a b k, item_get (a ++ b) k = match item_get b k with Some v => Some v | None => item_get a k end.
Proof.
  induction a as [|[k' v'] a IH]; intros b k; cbn [app item_get].
  - destruct (item_get b k); reflexivity.
  - rewrite IH. destruct (item_get b k); reflexivity.
Qed.

Definition contents (log : list (string * (did * items))) (d : did) : items :=
  List.concat (map snd (filter (fun p => did_eqb (fst p) d) (map snd log))).

Lemma contents_app : forall a b d, contents (a ++ b) d = contents a d ++ contents b d.
Proof. intros. unfold contents. rewrite map_app, filter_app, map_app, concat_app. reflexivity. Qed.

Lemma contents_in : forall log d k v, In (k, v) (contents log d) <-> exists m its, In (m, (d, its)) log /\ In (k, v) its.
Proof.
  induction log as [|[m [d' its]] log IH]; intros d k v.
  - split; [intros []|intros (m & its & [] & _)].
  - change ((m, (d', its)) :: log) with ([(m, (d', its))] ++ log). rewrite contents_app, in_app_iff, IH.
    unfold contents at 1. cbn [map filter fst snd]. split.
    + intros [H|(m' & its' & A & B)].
      * destruct (did_eqb d' d) eqn:Ed; [|destruct H]. apply did_eqb_sound in Ed. subst.
        cbn in H. rewrite app_nil_r in H. exists m, its. split; [left; reflexivity|exact H].
      * exists m', its'. split; [right; exact A|exact B].
    + intros (m' & its' & [A|A] & B).
      * inversion A; subst. left. rewrite did_eqb_refl. cbn. rewrite app_nil_r. exact B.
      * right. exists m', its'. auto.
Qed.

(** The binding found is the last one logged. *)
Lemma last_binding : forall log d k v, item_get (contents log d) k = Some v ->
  exists l1 m its l2, log = l1 ++ (m, (d, its)) :: l2 /\ In (k, v) its /\
    (forall m' its' v', In (m', (d, its')) l2 -> ~ In (k, v') its').
Proof.
  induction log as [|[m [d' its]] log IH]; intros d k v E; [discriminate|].
  change ((m, (d', its)) :: log) with ([(m, (d', its))] ++ log) in *.
  rewrite contents_app, item_get_app in E.
  destruct (item_get (contents log d) k) as [w|] eqn:E1.
  - inversion E; subst w. destruct (IH _ _ _ E1) as (l1 & m' & its' & l2 & A & B & C).
    exists ((m, (d', its)) :: l1), m', its', l2. split; [rewrite A; reflexivity|]. split; assumption.
  - unfold contents in E. cbn [map filter fst snd] in E.
    destruct (did_eqb d' d) eqn:Ed; [|discriminate]. apply did_eqb_sound in Ed. subst d'.
    cbn in E. rewrite app_nil_r in E.
    exists [], m, its, log. split; [reflexivity|]. split; [apply item_get_in, E|].
    intros m' its' v' H1 H2.
    assert (K : In (k, v') (contents log d)) by (apply contents_in; eauto).
    apply item_get_some in K. congruence.
Qed.

(** ** Log entries of a session *)

Lemma session_log : forall h W, session h = OK W -> forall m e,
  In (m, e) (w_log W) <-> exists R, loaded W m = Some R /\ In e (m_log R).
Proof.
  intros h W E m e. destruct (session_facts _ _ _ E good_empty) as (_ & _ & _ & _ & l & A & B).
  rewrite A. cbn [app empty w_log]. rewrite B. split.
  - intros (R & _ & X & Y). eauto.
  - intros (R & X & Y). exists R. repeat split; auto.
Qed.

Lemma log_registers : forall h W m d its k v, session h = OK W ->
  In (m, (d, its)) (w_log W) -> In (k, v) its -> registers m d k v.
Proof.
  intros h W m d its k v E H K. apply (session_log _ _ E) in H. destruct H as (R & A & B).
  exists R, its. split; [eapply loaded_finished; eauto|auto].
Qed.

Lemma registers_log : forall h W m d k v, session h = OK W -> loaded W m <> None -> registers m d k v ->
  exists its, In (m, (d, its)) (w_log W) /\ In (k, v) its.
Proof.
  intros h W m d k v E L (R & its & A & B & C).
  destruct (loaded W m) as [R'|] eqn:E'; [|congruence].
  pose proof (loaded_finished _ _ _ _ E E') as K. rewrite A in K. inversion K; subst R'.
  exists its. split; [|exact C]. apply (proj2 (session_log h W E m (d, its))). exists R. split; assumption.
Qed.

(** ** The table of all registrations, as computed *)

Definition table := table_of T.

Lemma lookup_in : forall {A} (l : list (string * A)) x v, lookup l x = Some v -> In (x, v) l.
Proof.
  induction l as [|[y w] l IH]; intros x v E; cbn [lookup] in E; [discriminate|].
  destruct (String.eqb x y) eqn:Ex; [apply String.eqb_eq in Ex; left; congruence|right; auto].
Qed.

Lemma table_of_complete : forall t m R d its k v, lookup (modres_of t) m = Some R -> In (d, its) (m_log R) -> In (k, v) its ->
  In (m, (d, (k, v))) (table_of t).
Proof.
  intros t m R d its k v A B C. rewrite lookup_modres in A. destruct (lookup t m) as [e|] eqn:E; [|discriminate].
  inversion A; subst R. unfold table_of. apply in_flat_map.
  exists (m, e). split; [apply lookup_in, E|]. apply in_flat_map. exists (d, its). split; [exact B|].
  cbn [fst snd]. apply in_map_iff. exists (k, v). auto.
Qed.

Lemma built_unique : forall t, built t -> forall m e, In (m, e) t -> lookup t m = Some e.
Proof.
  induction 1 as [|m0 p e0 t B IH N P S]; intros m e H; [destruct H|]. cbn [lookup].
  destruct H as [H|H]; [inversion H; subst; rewrite String.eqb_refl; reflexivity|].
  destruct (String.eqb m m0) eqn:E; [|auto]. apply String.eqb_eq in E. subst. apply IH in H. congruence.
Qed.

Lemma table_of_sound : forall t, built t -> forall m d k v, In (m, (d, (k, v))) (table_of t) ->
  exists R its, lookup (modres_of t) m = Some R /\ In (d, its) (m_log R) /\ In (k, v) its.
Proof.
  intros t B m d k v H. unfold table_of in H. apply in_flat_map in H. destruct H as ([m' e] & A & H).
  apply in_flat_map in H. destruct H as ([d' its] & C & H). cbn [fst snd] in *.
  apply in_map_iff in H. destruct H as ([k' v'] & H & D). inversion H; subst.
  exists (e_res e), its. split; [|auto]. rewrite lookup_modres, (built_unique _ B _ _ A). reflexivity.
Qed.

Lemma table_complete : forall m d k v, registers m d k v -> In (m, (d, (k, v))) table.
Proof.
  intros m d k v (R & its & A & B & C). exact (table_of_complete _ _ _ _ _ _ _ A B C).
Qed.
Lemma table_sound : forall m d k v, In (m, (d, (k, v))) table -> registers m d k v.
Proof. intros m d k v H. exact (table_of_sound _ T_built _ _ _ _ H). Qed.

Lemma agree_sound : forall skip allow l, (forall a b, allow a b = allow b a) -> agree skip allow l = true ->
  forall m n d k v v', In (m, (d, (k, v))) l -> In (n, (d, (k, v'))) l ->
  v = v' \/ In (d, k) skip \/ allow m n = true.
Proof.
  intros skip allow l SYM. induction l as [|[m0 [d0 [k0 v0]]] l IH]; intros H m n d k v v' A B; [destruct A|].
  cbn [agree] in H. apply andb_true_iff in H. destruct H as [H1 H2].
  rewrite forallb_forall in H1.
  assert (HEAD : forall n v', In (n, (d0, (k0, v'))) l -> v0 = v' \/ In (d0, k0) skip \/ allow m0 n = true).
  { intros x w Hx. specialize (H1 _ Hx). cbv beta iota in H1.
    rewrite did_eqb_refl, key_eqb_refl in H1. apply orb_true_iff in H1. destruct H1 as [H1|H1]; [|auto].
    apply orb_true_iff in H1. destruct H1 as [H1|H1]; [left; apply entry_eqb_iff, H1|].
    right; left. apply existsb_exists in H1. destruct H1 as ([d' k'] & X & Y).
    unfold same_key in Y. apply andb_true_iff in Y. cbn [fst snd] in Y. destruct Y as [Y1 Y2].
    apply did_eqb_sound in Y1. apply key_eqb_sound in Y2. congruence. }
  destruct A as [A|A], B as [B|B].
  - left. congruence.
  - inversion A; subst. apply HEAD, B.
  - inversion B; subst. rewrite SYM. destruct (HEAD _ _ A) as [X|X]; auto.
  - eapply IH; eauto.
Qed.

Lemma dids_in : forall l acc d, In d acc \/ (exists m kv, In (m, (d, kv)) l) -> In d (dids l acc).
Proof.
  induction l as [|[m [d' kv]] l IH]; intros acc d H; cbn [dids].
  - destruct H as [H|(m & kv & [])]; exact H.
  - apply IH. destruct H as [H|(m' & kv' & [H|H])].
    + left. destruct (existsb _ acc); [exact H|right; exact H].
    + inversion H; subst. left. destruct (existsb (did_eqb d) acc) eqn:E; [|left; reflexivity].
      apply existsb_exists in E. destruct E as (x & A & B). apply did_eqb_sound in B. congruence.
    + right. eauto.
Qed.

Lemma agree_all_sound : forall skip allow l, (forall a b, allow a b = allow b a) -> agree_all skip allow l = true ->
  forall m n d k v v', In (m, (d, (k, v))) l -> In (n, (d, (k, v'))) l ->
  v = v' \/ In (d, k) skip \/ allow m n = true.
Proof.
  intros skip allow l SYM H m n d k v v' A B. unfold agree_all in H. rewrite forallb_forall in H.
  specialize (H d (dids_in l [] d (or_intror (ex_intro _ m (ex_intro _ (k, v) A))))).
  eapply (agree_sound _ _ _ SYM H); apply filter_In; (split; [eassumption|]); cbn [fst snd]; apply did_eqb_refl.
Qed.

Lemma table_agree : agree_all order_dependent either_early table = true.
Proof. destruct T_facts as (_ & _ & _ & _ & _ & _ & K & _). exact K. Qed.
Lemma table_agree_strict : agree_all (order_dependent ++ overridden) (fun _ _ => false) table = true.
Proof. destruct T_facts as (_ & _ & _ & _ & _ & _ & _ & K & _). exact K. Qed.
Lemma table_orders : forallb (order_matters_b T table) (combine order_dependent culprits) = true.
Proof. destruct T_facts as (_ & _ & _ & _ & _ & _ & _ & _ & K & _). exact K. Qed.
Lemma table_keys : forallb (fun q => match q with (m, (d, (k, v))) => key_ok d k end) table = true.
Proof. destruct T_facts as (_ & _ & _ & _ & _ & _ & _ & _ & _ & K). exact K. Qed.

Opaque table.

Lemma registers_agree : forall m n d k v v', registers m d k v -> registers n d k v' ->
  ~ In (d, k) order_dependent -> v = v' \/ (m <> n /\ (early m n \/ early n m)).
Proof.
  intros m n d k v v' A B H.
  destruct (agree_all_sound _ either_early _ either_early_sym table_agree m n d k v v'
    (table_complete _ _ _ _ A) (table_complete _ _ _ _ B)) as [X|[X|X]]; [left; exact X|contradiction|].
  right. unfold either_early in X. apply andb_true_iff in X. destruct X as [Y X].
  split; [intros ->; rewrite String.eqb_refl in Y; discriminate|].
  apply orb_true_iff in X. destruct X as [X|X]; apply early_b_sound in X; auto.
Qed.

Lemma registers_unique : forall m n d k v v', registers m d k v -> registers n d k v' ->
  ~ In (d, k) (order_dependent ++ overridden) -> v = v'.
Proof.
  intros m n d k v v' A B H.
  destruct (agree_all_sound _ (fun _ _ => false) _ (fun a b => eq_refl) table_agree_strict m n d k v v'
    (table_complete _ _ _ _ A) (table_complete _ _ _ _ B)) as [X|[X|X]]; [exact X|contradiction|discriminate].
Qed.

(** ** Registry theorems *)

Lemma reg_get_registered : forall h W d k v, session h = OK W -> reg_get W d k = Some v ->
  exists m, loaded W m <> None /\ registers m d k v.
Proof.
  intros h W d k v E H. apply last_binding in H. destruct H as (l1 & m & its & l2 & A & B & _).
  assert (IN : In (m, (d, its)) (w_log W)) by (rewrite A; apply in_or_app; right; left; reflexivity).
  exists m. split; [|eapply log_registers; eauto].
  apply (session_log _ _ E) in IN. destruct IN as (R & X & _). congruence.
Qed.

Lemma registered_present : forall h W m d k v, session h = OK W -> loaded W m <> None ->
  registers m d k v -> exists w, reg_get W d k = Some w.
Proof.
  intros h W m d k v E L H. destruct (registers_log _ _ _ _ _ _ E L H) as (its & A & B).
  assert (K : In (k, v) (contents (w_log W) d)) by (apply contents_in; eauto).
  apply item_get_some in K. unfold reg_get.
  change (registry W d) with (contents (w_log W) d). destruct (item_get _ k); [eauto|congruence].
Qed.

(** If [b] imports [a] before touching registries, [a]'s binding is not the last. *)
Lemma late_wins : forall h W d k a b ia l1 l2 w, session h = OK W ->
  w_log W = l1 ++ (a, (d, ia)) :: l2 ->
  (forall m' its' v', In (m', (d, its')) l2 -> ~ In (k, v') its') ->
  loaded W b <> None -> registers b d k w -> b <> a -> early b a -> False.
Proof.
  intros h W d k a b ia l1 l2 w E A C L R NE X.
  destruct (registers_log _ _ _ _ _ _ E L R) as (its & I1 & I2).
  rewrite A in I1. apply in_app_or in I1. destruct I1 as [I1|[I1|I1]].
  - apply in_split in I1. destruct I1 as (p & q & ->).
    assert (O : ordered W) by (eapply session_ordered; [exact E|exact ordered_empty]).
    rewrite <- app_assoc in A. destruct (O b a X _ _ _ A) as [_ N].
    apply (N (d, ia)). apply in_or_app. right; left; reflexivity.
  - congruence.
  - eapply C; eauto.
Qed.

Lemma order_independent : forall h1 h2 W1 W2, session h1 = OK W1 -> session h2 = OK W2 ->
  (forall m, loaded W1 m <> None <-> loaded W2 m <> None) ->
  forall d k, ~ In (d, k) order_dependent -> reg_get W1 d k = reg_get W2 d k.
Proof.
  assert (HALF : forall h1 h2 W1 W2, session h1 = OK W1 -> session h2 = OK W2 ->
    (forall m, loaded W1 m <> None <-> loaded W2 m <> None) ->
    forall d k v, ~ In (d, k) order_dependent -> reg_get W1 d k = Some v -> reg_get W2 d k = Some v).
  { intros h1 h2 W1 W2 E1 E2 L d k v ND G1.
    assert (G2 : exists w, reg_get W2 d k = Some w).
    { destruct (reg_get_registered _ _ _ _ _ E1 G1) as (m & X & Y).
      eapply registered_present; eauto. apply L, X. }
    destruct G2 as [w G2]. rewrite G2. f_equal.
    pose proof G1 as H1. pose proof G2 as H2.
    apply last_binding in H1. destruct H1 as (a1 & m1 & i1 & b1 & A1 & B1 & C1).
    apply last_binding in H2. destruct H2 as (a2 & m2 & i2 & b2 & A2 & B2 & C2).
    assert (IN1 : In (m1, (d, i1)) (w_log W1)) by (rewrite A1; apply in_or_app; right; left; reflexivity).
    assert (IN2 : In (m2, (d, i2)) (w_log W2)) by (rewrite A2; apply in_or_app; right; left; reflexivity).
    pose proof (log_registers _ _ _ _ _ _ _ E1 IN1 B1) as R1.
    pose proof (log_registers _ _ _ _ _ _ _ E2 IN2 B2) as R2.
    assert (L1 : loaded W1 m1 <> None) by (apply (session_log _ _ E1) in IN1; destruct IN1 as (? & X & _); congruence).
    assert (L2 : loaded W2 m2 <> None) by (apply (session_log _ _ E2) in IN2; destruct IN2 as (? & X & _); congruence).
    destruct (registers_agree _ _ _ _ _ _ R2 R1 ND) as [X|[NE [X|X]]]; auto; exfalso.
    - (* m2 imports m1: in W1, m2's binding comes after m1's *)
      apply L in L2. exact (late_wins h1 W1 d k m1 m2 i1 a1 b1 w E1 A1 C1 L2 R2 NE X).
    - apply L in L1. exact (late_wins h2 W2 d k m2 m1 i2 a2 b2 v E2 A2 C2 L1 R1 (not_eq_sym NE) X). }
  intros h1 h2 W1 W2 E1 E2 L d k ND.
  destruct (reg_get W1 d k) as [v|] eqn:G1.
  - symmetry. eapply (HALF h1 h2); eauto.
  - destruct (reg_get W2 d k) as [w|] eqn:G2; [|reflexivity].
    rewrite <- G1. symmetry. rewrite <- G2. symmetry.
    rewrite G2. eapply (HALF h2 h1); eauto. intro m. symmetry. apply L.
Qed.

(** ** Witnesses of order dependence *)

Lemma in_combine_exists : forall {A B} (l : list A) (l' : list B) x, List.length l = List.length l' ->
  In x l -> exists y, In (x, y) (combine l l').
Proof.
  induction l as [|a l IH]; intros [|b l'] x E H; try discriminate; [destruct H|]; destruct H as [H|H].
  - subst. exists b. left; reflexivity.
  - destruct (IH l' x) as [y Hy]; [inversion E; auto|exact H|]. exists y. right; exact Hy.
Qed.

Lemma mentions_in : forall t n d k v, mentions t n d k = Some v -> In (n, (d, (k, v))) t.
Proof.
  intros t n d k v H. unfold mentions in H. destruct (find _ t) as [[m [d' [k' w]]]|] eqn:E; [|discriminate].
  apply find_some in E. destruct E as [A B]. cbv beta iota in B.
  apply andb_true_iff in B. destruct B as [B1 B]. apply andb_true_iff in B. destruct B as [B2 B3].
  apply String.eqb_eq in B1. apply did_eqb_sound in B2. apply key_eqb_sound in B3. congruence.
Qed.

Lemma T_reach : forall m e x, lookup T m = Some e -> (mem x (e_clos e) = true <-> reach m x).
Proof. intros m e x E. rewrite mem_iff. exact (clos_reach _ T_built _ _ E x). Qed.

Lemma foldM_two : forall {A B} (f : A -> B -> r A) b1 b2 x y z,
  foldM f [b1] x = OK y -> foldM f [b2] y = OK z -> foldM f [b1; b2] x = OK z.
Proof.
  intros A B f b1 b2 x y z H1 H2. cbn [foldM] in *. destruct (f x b1) as [y'| |]; cbn [bind] in *; try discriminate.
  inversion H1; subst. exact H2.
Qed.

Lemma second_wins_sound : forall a b d k v, second_wins T table a b d k v = true -> registers b d k v ->
  In a module_names -> In b module_names ->
  exists W, session [a; b] = OK W /\ reg_get W d k = Some v.
Proof.
  intros a b d k v H R Ha Hb. unfold second_wins in H.
  destruct (lookup T a) as [ea|] eqn:Ea; [|discriminate]. destruct (lookup T b) as [eb|] eqn:Eb; [|discriminate].
  apply andb_true_iff in H. destruct H as [Hn Hf]. rewrite forallb_forall in Hf.
  destruct (session_ok_from [a] empty good_empty) as [Wa E1]; [intros m [<-|[]]; exact Ha|].
  destruct (session_facts _ _ _ E1 good_empty) as (G1 & _ & L1 & N1 & _).
  destruct (session_ok_from [b] Wa G1) as [W E2]; [intros m [<-|[]]; exact Hb|].
  assert (E : session [a; b] = OK W).
  { exact (foldM_two (import nesting []) a b empty Wa W E1 E2). }
  exists W. split; [exact E|].
  destruct (session_facts _ _ _ E2 G1) as (G2 & _ & L2 & N2 & l & LG & LI).
  assert (NB : loaded Wa b = None).
  { destruct (loaded Wa b) as [Rz|] eqn:Q; [|reflexivity]. exfalso.
    assert (X : loaded Wa b <> None) by congruence.
    destruct (N1 b eq_refl X) as (m & [<-|[]] & RC).
    apply (T_reach _ _ _ Ea) in RC. rewrite RC in Hn. discriminate. }
  destruct R as (Rb & its & F & I1 & I2).
  assert (LB : loaded W b = Some Rb).
  { specialize (L2 b (or_introl eq_refl)). destruct (loaded W b) as [R'|] eqn:Q; [|congruence].
    pose proof (loaded_finished _ _ _ _ E Q) as K. rewrite F in K. congruence. }
  assert (INL : In (b, (d, its)) l) by (apply LI; exists Rb; auto).
  unfold reg_get. change (registry W d) with (contents (w_log W) d).
  rewrite LG, contents_app, item_get_app.
  assert (K : In (k, v) (contents l d)) by (apply contents_in; eauto).
  apply item_get_some in K. destruct (item_get (contents l d) k) as [w|] eqn:Q; [|congruence]. f_equal.
  apply item_get_in in Q. apply contents_in in Q. destruct Q as (m & its' & Q1 & Q2).
  pose proof (proj1 (LI _ _) Q1) as (Rm & M1 & M2 & M3).
  assert (RG : registers m d k w).
  { exists Rm, its'. split; [exact (loaded_finished _ _ _ _ E M2)|auto]. }
  assert (X : loaded W m <> None) by congruence.
  destruct (N2 m M1 X) as (b' & [<-|[]] & RC).
  specialize (Hf _ (table_complete _ _ _ _ RG)). cbv beta iota in Hf.
  rewrite did_eqb_refl, key_eqb_refl, (proj2 (T_reach _ _ m Eb) RC) in Hf.
  apply orb_true_iff in Hf. destruct Hf as [Hf|Hf]; [|apply entry_eqb_iff, Hf]. exfalso.
  apply (T_reach _ _ m Ea) in Hf.
  pose proof (good_closed _ G1 _ _ Hf (L1 a (or_introl eq_refl))) as Z. exact (Z M1).
Qed.

Lemma registers_named : forall m d k v, registers m d k v -> In m module_names.
Proof.
  intros m d k v (R & its & A & _). unfold finished in A. revert A. pose proof T_good as G. revert G.
  generalize (modres_of T) as l. intros l G A. exact (loaded_named l G m R A).
Qed.

Lemma order_matters : forall d k, In (d, k) order_dependent ->
  exists a b W1 W2, session [a; b] = OK W1 /\ session [b; a] = OK W2 /\
    exists v1 v2, reg_get W1 d k = Some v1 /\ reg_get W2 d k = Some v2 /\ v1 <> v2.
Proof.
  intros d k H.
  destruct (in_combine_exists order_dependent culprits (d, k) eq_refl H) as [[a b] K].
  pose proof (proj1 (forallb_forall _ _) table_orders _ K) as X. unfold order_matters_b in X.
  destruct (mentions table a d k) as [va|] eqn:Ma; [|discriminate].
  destruct (mentions table b d k) as [vb|] eqn:Mb; [|discriminate].
  apply andb_true_iff in X. destruct X as [X Y]. apply andb_true_iff in Y. destruct Y as [Y1 Y2].
  apply mentions_in, table_sound in Ma. apply mentions_in, table_sound in Mb.
  destruct (second_wins_sound _ _ _ _ _ Y1 Mb) as (W1 & S1 & G1); [exact (registers_named _ _ _ _ Ma)|exact (registers_named _ _ _ _ Mb)|].
  destruct (second_wins_sound _ _ _ _ _ Y2 Ma) as (W2 & S2 & G2); [exact (registers_named _ _ _ _ Mb)|exact (registers_named _ _ _ _ Ma)|].
  exists a, b, W1, W2. split; [exact S1|]. split; [exact S2|]. exists vb, va. split; [exact G1|]. split; [exact G2|].
  intros ->. rewrite (proj2 (entry_eqb_iff va va) eq_refl) in X. discriminate X.
Qed.

(** ** Registrations of the source text *)

Definition eval_in (W : world) (m : string) (e : expr) : r pyval := eval_with (loaded W) m e.

Lemma registers_b_sound : forall R d k v, registers_b R d k v = true ->
  exists its, In (d, its) (m_log R) /\ In (k, v) its.
Proof.
  intros R d k v H. unfold registers_b in H. apply existsb_exists in H. destruct H as ([d' its] & A & B).
  apply andb_true_iff in B. cbn [fst snd] in B. destruct B as [B C]. apply did_eqb_sound in B. subst d'.
  apply existsb_exists in C. destruct C as ([k' v'] & C & D). apply andb_true_iff in D. cbn [fst snd] in D.
  destruct D as [D E]. apply key_eqb_sound in D. apply entry_eqb_iff in E. subst.
  exists its. auto.
Qed.

Lemma registration_ok_sound : forall i m t ke ve, registration_ok i m (t, (ke, ve)) = true ->
  exists d kv vv k v R its, eval_with i m t = OK (PDict d) /\ eval_with i m ke = OK kv /\ eval_with i m ve = OK vv /\
    as_key kv = Some k /\ as_item vv = Some v /\ i m = Some R /\ In (d, its) (m_log R) /\ In (k, v) its.
Proof.
  intros i m t ke ve Y. unfold registration_ok in Y. cbn [fst snd] in Y.
  destruct (i m) as [R|] eqn:ER; [|discriminate].
  destruct (eval_with i m t) as [tv| |] eqn:E1; try discriminate. destruct tv; try discriminate.
  destruct (eval_with i m ke) as [kv| |] eqn:E2; try discriminate.
  destruct (eval_with i m ve) as [vv| |] eqn:E3; try discriminate.
  destruct (as_key kv) as [k|] eqn:E4; [|discriminate].
  destruct (as_item vv) as [v|] eqn:E5; [|discriminate].
  destruct (registers_b_sound _ _ _ _ Y) as (its & A & B).
  exists d, kv, vv, k, v, R, its. auto 10.
Qed.

Lemma eval_with_ext : forall i j m e v, ext i j -> eval_with i m e = OK v -> eval_with j m e = OK v.
Proof.
  intros i j m e v X H. unfold eval_with in *. destruct (i m) as [R|] eqn:ER; [|discriminate].
  rewrite (X _ _ ER). exact (ev_mono m _ _ X [] (mkS (m_ns R) (m_cls R) (m_log R)) e _ H).
Qed.

(** A session that loads [m] loads what the table says about [m]'s dependencies. *)
Lemma session_extends : forall h W m e, session h = OK W -> loaded W m <> None -> lookup T m = Some e ->
  ext (t_imp T (e_clos e)) (loaded W).
Proof.
  intros h W m e E L ET n R H.
  destruct (session_facts _ _ _ E good_empty) as (G & _).
  unfold t_imp in H. destruct (mem n (e_clos e)) eqn:M; [|discriminate].
  apply (T_reach _ _ _ ET) in M. pose proof (good_closed _ G _ _ M L) as K.
  change (lookup (w_mods W) n) with (loaded W n) in K.
  destruct (loaded W n) as [R'|] eqn:E'; [|congruence].
  pose proof (loaded_finished _ _ _ _ E E') as F. unfold finished in F. rewrite lookup_modres in F.
  destruct (lookup T n); [|discriminate]. congruence.
Qed.

Lemma registration_registered : forall h W m p t ke ve, session h = OK W -> loaded W m <> None ->
  lookup all_modules m = Some p -> In (t, (ke, ve)) (registrations p) ->
  exists d kv vv k v, eval_in W m t = OK (PDict d) /\ eval_in W m ke = OK kv /\ eval_in W m ve = OK vv /\
    as_key kv = Some k /\ as_item vv = Some v /\ registers m d k v.
Proof.
  intros h W m p t ke ve E L Hp Hr.
  destruct T_facts as (_ & _ & TA & _). unfold registrations_ok in TA.
  pose proof (proj1 (forallb_forall _ _) TA _ (lookup_in _ _ _ Hp)) as X. cbv beta in X. cbn [fst snd] in X.
  destruct (lookup T m) as [e|] eqn:ET; [|discriminate]. cbv zeta in X.
  pose proof (proj1 (forallb_forall _ _) X _ Hr) as Y. clear X TA.
  destruct (registration_ok_sound _ _ _ _ _ Y) as (d & kv & vv & k & v & R & its & A & B & C & D & F & G & H & I).
  pose proof (session_extends _ _ _ _ E L ET) as X.
  exists d, kv, vv, k, v. split; [exact (eval_with_ext _ _ _ _ _ X A)|].
  split; [exact (eval_with_ext _ _ _ _ _ X B)|]. split; [exact (eval_with_ext _ _ _ _ _ X C)|].
  split; [exact D|]. split; [exact F|]. exists R, its.
  split; [exact (t_imp_ext _ _ _ _ G)|]. split; [exact H|exact I].
Qed.

(** ** Shape of keys *)

Lemma registers_key : forall m d k v, registers m d k v -> key_ok d k = true.
Proof.
  intros m d k v H. exact (proj1 (forallb_forall _ _) table_keys _ (table_complete _ _ _ _ H)).
Qed.
