(** The registries and the open components of every session against the RFCs. *)
From Coq Require Import List String ZArith NArith Bool Lia.
From Verif Require Import Py.Syntax Asn1.Types Py.Eval Asn1.EqbFacts Gen.All Asn1.Bytes Asn1.Der Asn1.Wf Asn1.Open Asn1.OpenDepth Asn1.Opened Asn1.Inside Asn1.Reencode
  Load.Import Load.ImportFacts Load.Table Load.Computed Load.Registry Load.Session Load.Schemas Load.Checked Load.CheckedFacts
  Spec.X680 Spec.X690 Spec.Agree Spec.Conform Spec.Looser Spec.Reads Spec.Catalogue Spec.Deviations Spec.Oids
  Spec.Associations Spec.Slots Spec.Checked Spec.Facts.
Import ListNotations.
Open Scope string_scope.
Open Scope list_scope.

Opaque all_modules T table nesting depth.

Section codec.
Context {Cdc : codec}.

(** ** Associations *)

(** Is the type of the association one of the listed types? *)
Definition listed (l : list name2) (a : association) : Prop :=
  match as_type a with Named x => In (as_module a, x) l | _ => False end.
(** [t] encodes the values of [s] as X.690 says, and decodes the encodings. *)
Definition encodes_as (s : sty) (t : asn1) : Prop :=
  forall v, has s v = true -> regular false s v = true -> encode t v = huge (DER s v).
Definition decodes_as (s : sty) (t : asn1) : Prop :=
  forall v b rest, has s v = true -> regular false s v = true -> normal s v -> DER s v = Some b -> decode t (b ++ rest) = Ok (v, rest).

Lemma keyed_in : forall R l a o, In (a, o) (keyed R l) <-> In a l /\ o = key_with R (as_module a) (as_id a).
Proof.
  intros R l a o. unfold keyed. rewrite in_map_iff. split.
  - intros (a' & A & B). assert (a' = a) by congruence. subst a'. split; [exact B|congruence].
  - intros [A ->]. exists a. split; [reflexivity|exact A].
Qed.
Lemma key_is_some : forall o k, key_is o k = true -> o = Some k.
Proof. intros [k'|] k H; [|discriminate H]. cbn [key_is] in H. apply key_eqb_sound in H. congruence. Qed.

Lemma assoc_parts : forall T, assoc_checks T = true ->
  let A := keyed (respelt registered) associations in
  forallb (associated T A) (table_of T) = true /\ forallb (Checked.present (table_of T)) A = true /\
  forallb (missing (table_of T)) (keyed (respelt registered) omitted) = true /\
  forallb (strays_shown stray (table_of T) A) strays = true /\ forallb (strays_shown unbounded (table_of T) A) wide = true.
Proof. intros T K. unfold assoc_checks in K. cbv zeta in *. do 4 (apply andb_true_iff in K; destruct K as [?H K]). repeat split; assumption. Qed.
Lemma T_assoc : 
  let A := keyed (respelt registered) associations in
  forallb (associated T A) table = true /\ forallb (Checked.present table) A = true /\
  forallb (missing table) (keyed (respelt registered) omitted) = true /\
  forallb (strays_shown stray table A) strays = true /\ forallb (strays_shown unbounded table A) wide = true.
Proof. Transparent table. unfold table. Opaque table. exact (assoc_parts T (proj1 (proj2 T_more))). Qed.

Lemma registered_associated : forall m d k t o, registers m d k (t, o) -> hidden d = false ->
  exists a, In a associations /\ as_module a = m /\ as_registry a = d /\ key_of m (as_id a) = Some k /\ fits_but T a t = true.
Proof.
  intros m d k t o RG HD. pose proof (table_complete _ _ _ _ RG) as I. destruct T_assoc as (K & _).
  pose proof (proj1 (forallb_forall _ _) K _ I) as Q. clear K. cbn [associated] in Q. rewrite HD in Q.
  apply existsb_exists in Q. destruct Q as ([a o'] & A & Q). apply keyed_in in A. destruct A as [A ->]. cbn [fst snd] in Q.
  destruct (String.eqb (as_module a) m) eqn:EM; [|discriminate Q]. destruct (did_eqb (as_registry a) d) eqn:ED; [|discriminate Q].
  destruct (key_is _ k) eqn:EK; [|discriminate Q]. apply String.eqb_eq in EM. apply did_eqb_sound in ED. apply key_is_some in EK. subst m d.
  exists a. repeat split; assumption.
Qed.

Lemma strays_sound : forall P tb R A m d i v, strays_shown P tb (keyed R A) (m, d, i, v) = true ->
  exists a k t o, In a A /\ as_module a = m /\ as_registry a = d /\ as_id a = i /\ key_with R m i = Some k /\ In (m, (d, (k, (t, o)))) tb /\
    P (sty_of m (as_type a)) t v = true.
Proof.
  intros P tb R A0 m d i v Q. cbn [strays_shown] in Q.
  destruct (find _ _) as [[a [k|]]|] eqn:F; try discriminate Q. apply find_some in F. destruct F as [F1 F2]. apply keyed_in in F1. destruct F1 as [F1 F3].
  cbn [fst] in F2. rewrite !andb_true_iff in F2. destruct F2 as [[A B] C]. apply String.eqb_eq in A. apply did_eqb_sound in B.
  assert (D : as_id a = i).
  { clear - C. destruct (as_id a) as [n|n x|z], i as [n'|n' x'|z']; try discriminate C; cbn [ident_eqb] in C.
    - apply String.eqb_eq in C. congruence.
    - apply andb_true_iff in C. destruct C as [C1 C2]. apply String.eqb_eq in C1. apply N.eqb_eq in C2. congruence.
    - apply Z.eqb_eq in C. congruence. }
  apply existsb_exists in Q. destruct Q as ([m' [d' [k' [t o]]]] & IT & Q).
  destruct (String.eqb m m') eqn:EM; [|discriminate Q]. destruct (did_eqb d d') eqn:ED; [|discriminate Q]. destruct (key_eqb k k') eqn:EK; [|discriminate Q].
  apply String.eqb_eq in EM. apply did_eqb_sound in ED. apply key_eqb_sound in EK. subst m' d' k' m d i.
  exists a, k, t, o. repeat split; try assumption. symmetry. exact F3.
Qed.

Section session.
  Variables (h : list string) (W : world).
  Hypothesis E : session h = OK W.

  Lemma fit_type : forall m c t, loaded W m <> None -> fits T m c t = true ->
    exists s, sty_of m c = Some s /\ match c with Named x => schema W m x = Some (t, None) | _ => agrees true true s None [] [] t = true end.
  Proof.
    intros m c t L F. destruct c as [x|s|]; cbn [fits sty_of] in *; [|exists s; split; [reflexivity|exact F]|discriminate F].
    rewrite (schema_eq T_chains h W m x E L). destruct (definition m x) as [s|]; [|discriminate F].
    destruct (schema_in T m x) as [[t' [w|]]|]; try discriminate F. apply asn1_eqb_sound in F. subst t'. exists s. split; reflexivity.
  Qed.
  Lemma fit_encodes : forall m c t s, loaded W m <> None -> fits T m c t = true -> sty_of m c = Some s ->
    (forall x, c = Named x -> ~ In (m, x) deviating) -> encodes_as s t.
  Proof.
    intros m c t s L F S N. destruct (fit_type m c t L F) as (s' & S' & K). assert (s' = s) by congruence. subst s'.
    destruct c as [x|s0|].
    - exact (type_encodes_der h W m x E s t S K (N x eq_refl)).
    - intros v. exact (encode_is_der true true s t v K).
    - discriminate S.
  Qed.
  Lemma fit_accepts : forall m c t s, loaded W m <> None -> fits T m c t = true -> sty_of m c = Some s ->
    (forall x, c = Named x -> ~ In (m, x) deviating /\ ~ In (m, x) tight) -> forall v, has s v = true -> allowed t v = true.
  Proof.
    intros m c t s L F S N v V. destruct (fit_type m c t L F) as (s' & S' & K). assert (s' = s) by congruence. subst s'.
    destruct c as [x|s0|].
    - exact (type_accepts h W m x E s t S K (proj1 (N x eq_refl)) (proj2 (N x eq_refl)) v V).
    - destruct (has_shaped s v V) as [Sh B]. rewrite (bounds_are true s t v K Sh). exact B.
    - discriminate S.
  Qed.
  Lemma fit_wire : forall m c t s, loaded W m <> None -> fits T m c t = true -> sty_of m c = Some s ->
    (forall x, c = Named x -> ~ In (m, x) deviating) -> has_wire s t = true.
  Proof.
    intros m c t s L F S N. destruct (fit_type m c t L F) as (s' & S' & K). assert (s' = s) by congruence. subst s'.
    destruct c as [x|s0|]; [exact (type_wire h W m x E s t S K (N x eq_refl))| |discriminate S].
    exact (agrees_weaken [] true true false false eq_refl eq_refl _ _ _ _ _ K).
  Qed.

  (** Every registered type has its association, and is its type. *)
  Theorem registered_types : forall d k t, reg_of W d k = Some t -> hidden d = false ->
    exists a, In a associations /\ loaded W (as_module a) <> None /\ as_registry a = d /\ key_of (as_module a) (as_id a) = Some k /\
      (among strays a = false -> exists s, sty_of (as_module a) (as_type a) = Some s /\
        (~ listed deviating a -> encodes_as s t /\ (~ listed tight a -> k <> statusInfoV2 -> decodes_as s t))).
  Proof.
    intros d k t G HD. pose proof (registered_ok h W d k t E G) as [OP WF]. unfold reg_of in G.
    destruct (reg_get W d k) as [[t' o]|] eqn:RG; [|discriminate G]. assert (t' = t) by congruence. subst t'.
    destruct (reg_get_registered _ _ _ _ _ E RG) as (m & L & R). destruct (registered_associated _ _ _ _ _ R HD) as (a & A & <- & <- & K & F).
    exists a. split; [exact A|]. split; [exact L|]. split; [reflexivity|]. split; [exact K|]. intro NS. unfold fits_but in F. rewrite NS in F.
    destruct (fits T (as_module a) (as_type a) t) eqn:FT.
    - destruct (fit_type _ _ _ L FT) as (s & S & _). exists s. split; [exact S|]. intro ND.
      assert (N1 : forall x, as_type a = Named x -> ~ In (as_module a, x) deviating).
      { intros x EX I. apply ND. unfold listed. rewrite EX. exact I. }
      split; [exact (fit_encodes _ _ _ _ L FT S N1)|]. intros NT NK v b rest V Rg Nm D.
      refine (decode_reads_der false false s t v b rest (fit_wire _ _ _ _ L FT S N1) (WF NK) OP V Rg Nm _ D).
      refine (fit_accepts _ _ _ _ L FT S _ v V). intros x EX. split; [exact (N1 x EX)|]. intro I. apply NT. unfold listed. rewrite EX. exact I.
    - apply andb_true_iff in F. destruct F as [_ F]. destruct (sty_of (as_module a) (as_type a)) as [s|] eqn:S; [|discriminate F].
      apply andb_true_iff in F. destruct F as [F1 F2]. exists s. split; [reflexivity|]. intros _. split.
      + intros v. exact (encode_is_der false false s t v F1).
      + intros _ NK v b rest V Rg Nm D. destruct (has_shaped s v V) as [Sh B].
        exact (decode_reads_der false false s t v b rest F1 (WF NK) OP V Rg Nm (looser_allows s [] t v F2 Sh eq_refl B) D).
  Qed.

  (** Every association is registered. *)
  Lemma association_registered : forall a, In a associations -> exists k v, key_of (as_module a) (as_id a) = Some k /\ registers (as_module a) (as_registry a) k v.
  Proof.
    intros a I. destruct T_assoc as (_ & K & _).
    pose proof (proj1 (forallb_forall _ _) K (a, key_of (as_module a) (as_id a)) (proj2 (keyed_in _ _ _ _) (conj I eq_refl))) as Q. clear K.
    unfold Checked.present in Q. apply existsb_exists in Q. destruct Q as ([m [d [k [t o]]]] & IT & Q). cbn [fst snd] in Q.
    destruct (String.eqb (as_module a) m) eqn:EM; [|discriminate Q]. destruct (did_eqb (as_registry a) d) eqn:ED; [|discriminate Q].
    apply String.eqb_eq in EM. apply did_eqb_sound in ED. apply key_is_some in Q. subst m d. exists k, (t, o). split; [exact Q|exact (table_sound _ _ _ _ IT)].
  Qed.
  Theorem associations_present : forall a, In a associations -> loaded W (as_module a) <> None ->
    exists k t, key_of (as_module a) (as_id a) = Some k /\ reg_of W (as_registry a) k = Some t.
  Proof.
    intros a I L. destruct (association_registered a I) as (k & v & K & R). destruct (registered_present _ _ _ _ _ _ E L R) as ([t o] & G).
    exists k, t. split; [exact K|]. unfold reg_of. rewrite G. reflexivity.
  Qed.
  Theorem omissions_absent : forall a, In a omitted -> exists k, key_of (as_module a) (as_id a) = Some k /\ reg_of W (as_registry a) k = None.
  Proof.
    intros a I. destruct T_assoc as (_ & _ & K & _).
    pose proof (proj1 (forallb_forall _ _) K (a, key_of (as_module a) (as_id a)) (proj2 (keyed_in _ _ _ _) (conj I eq_refl))) as Q. clear K.
    unfold missing in Q. cbn [fst snd] in Q. destruct (key_of (as_module a) (as_id a)) as [k|]; [|discriminate Q]. exists k. split; [reflexivity|].
    unfold reg_of. destruct (reg_get W (as_registry a) k) as [[t o]|] eqn:G; [|reflexivity]. exfalso.
    destruct (reg_get_registered _ _ _ _ _ E G) as (m & _ & R). pose proof (proj1 (forallb_forall _ _) Q _ (table_complete _ _ _ _ R)) as B.
    cbv beta iota in B. rewrite did_eqb_refl, key_eqb_refl in B. discriminate B.
  Qed.
  Lemma shown_registered : forall P l, forallb (strays_shown P table (keyed (respelt registered) associations)) l = true ->
    forall m d i v, In (m, d, i, v) l ->
    exists a k t o, In a associations /\ as_module a = m /\ as_registry a = d /\ as_id a = i /\ key_of m i = Some k /\ registers m d k (t, o) /\
      P (sty_of m (as_type a)) t v = true.
  Proof.
    intros P l K m d i v I. destruct (strays_sound P table (respelt registered) associations _ _ _ _ (proj1 (forallb_forall _ _) K _ I)) as (a & k & t & o & X1 & X2 & X3 & X4 & X5 & X6 & X7).
    exists a, k, t, o. repeat split; try assumption. exact (table_sound _ _ _ _ X6).
  Qed.
End session.
Definition strays_registered := shown_registered _ _ (proj1 (proj2 (proj2 (proj2 T_assoc)))).
Definition wide_registered := shown_registered _ _ (proj2 (proj2 (proj2 (proj2 T_assoc)))).

(** The listed registrations in a session: unless another module registers the key as well. *)
Lemma registered_is : forall h W m d k t o, session h = OK W -> loaded W m <> None -> registers m d k (t, o) ->
  ~ In (d, k) (order_dependent ++ overridden) -> reg_of W d k = Some t.
Proof.
  intros h W m d k t o E L R N. destruct (registered_present _ _ _ _ _ _ E L R) as (w & G).
  destruct (reg_get_registered _ _ _ _ _ E G) as (m' & _ & R'). pose proof (registers_unique _ _ _ _ _ _ R R' N) as <-.
  unfold reg_of. rewrite G. reflexivity.
Qed.
Theorem strays_differ : forall h W m d i v, session h = OK W -> loaded W m <> None -> In (m, d, i, v) strays ->
  exists a k, In a associations /\ as_module a = m /\ as_registry a = d /\ as_id a = i /\ key_of m i = Some k /\
    (~ In (d, k) (order_dependent ++ overridden) -> exists t, reg_of W d k = Some t /\
      match sty_of m (as_type a) with
      | Some s => differs s t v = true
      | None => exists b, encode t v = Ok b
      end).
Proof.
  intros h W m d i v E L I. destruct (strays_registered m d i v I) as (a & k & t & o & A & B & C & D & K & R & P).
  exists a, k. do 5 (split; [assumption|]). intro N. exists t. split; [exact (registered_is h W m d k t o E L R N)|].
  unfold stray in P. destruct (sty_of m (as_type a)); [exact P|]. destruct (encode t v); try discriminate P. eexists. reflexivity.
Qed.
Theorem wide_accept : forall h W m d i v, session h = OK W -> loaded W m <> None -> In (m, d, i, v) wide ->
  exists a k s, In a associations /\ as_module a = m /\ as_registry a = d /\ as_id a = i /\ key_of m i = Some k /\
    sty_of m (as_type a) = Some s /\
    (~ In (d, k) (order_dependent ++ overridden) -> exists t, reg_of W d k = Some t /\ shaped s v = true /\ allowed t v <> bounded s v).
Proof.
  intros h W m d i v E L I. destruct (wide_registered m d i v I) as (a & k & t & o & A & B & C & D & K & R & P).
  unfold unbounded in P. destruct (sty_of m (as_type a)) as [s|] eqn:S; [|discriminate P].
  exists a, k, s. do 5 (split; [assumption|]). split; [exact S|]. intro N. exists t. split; [exact (registered_is h W m d k t o E L R N)|].
  unfold otherwise_bounded in P. apply andb_true_iff in P. destruct P as [P1 P2]. split; [exact P1|]. intros X. rewrite X in P2.
  destruct (bounded s v); discriminate P2.
Qed.

(** ** Open components *)

Lemma row_fits_sound : forall fs f g d rows, existsb (row_fits fs f g d) rows = true ->
  exists r, In r rows /\ fname f = sl_component r /\ g = sl_governor r /\ d = sl_registry r /\ fnames fs = sl_names r.
Proof.
  intros fs f g d rows H. apply existsb_exists in H. destruct H as (r & I & H). unfold row_fits in H. rewrite !andb_true_iff in H.
  destruct H as [[[A B] C] D]. apply String.eqb_eq in A. apply String.eqb_eq in B. apply did_eqb_sound in C.
  apply (list_eqb_sound String.eqb Seqb_sound) in D. exists r. repeat split; assumption.
Qed.
Theorem open_components : forall h W m x t o, session h = OK W -> schema W m x = Some (t, o) ->
  forall b ms fs f g d, inside (TSeq b ms fs) t -> In f fs -> fopen f = Some (g, d) ->
  exists r, In r (slots ++ misplaced) /\ fname f = sl_component r /\ g = sl_governor r /\ d = sl_registry r /\ fnames fs = sl_names r.
Proof.
  intros h W m x t o E HS b ms fs f g d IN I O.
  pose proof (schema_all T_chains slots_well (proj1 (proj2 (proj2 T_more))) h W m x (t, o) E HS) as K. unfold slots_well in K. cbn [fst snd] in K.
  pose proof (everywhere_inside _ _ _ IN K) as Q. cbn [slotted] in Q. pose proof (proj1 (forallb_forall _ _) Q f I) as P. cbv beta in P.
  rewrite O in P. exact (row_fits_sound _ _ _ _ _ P).
Qed.
Lemma slot_type : forall h W r, session h = OK W -> In r (slots ++ misplaced) -> loaded W (fst (sl_type r)) <> None ->
  exists t o, schema W (fst (sl_type r)) (snd (sl_type r)) = Some (t, o) /\ has_slot r t = true.
Proof.
  intros h W r E I L. pose proof (proj1 (forallb_forall _ _) (proj1 (proj2 (proj2 (proj2 T_more)))) r I) as K. unfold slot_in in K.
  rewrite (schema_eq T_chains h W _ _ E L). destruct (schema_in T _ _) as [[t o]|]; [|discriminate K]. exists t, o. split; [reflexivity|exact K].
Qed.
Lemma has_slot_sound : forall r t, has_slot r t = true -> exists b ms fs f, t = TSeq b ms fs /\ fnames fs = sl_names r /\
  find (fun f => String.eqb (fname f) (sl_component r)) fs = Some f /\ fopen f = Some (sl_governor r, sl_registry r) /\
  forallb (fun f => negb (String.eqb (fname f) (sl_governor r)) || match fopen f with None => true | Some _ => false end) fs = true.
Proof.
  intros r t H. destruct t as [|b ms fs| |]; try discriminate H. cbn [has_slot] in H. rewrite !andb_true_iff in H. destruct H as [[A B] C].
  apply (list_eqb_sound String.eqb Seqb_sound) in A. unfold named in *. destruct (find _ fs) as [f|] eqn:F; [|discriminate B].
  destruct (fopen f) as [[g d]|] eqn:O; [|discriminate B]. apply andb_true_iff in B. destruct B as [B1 B2]. apply String.eqb_eq in B1.
  apply did_eqb_sound in B2. subst g d. exists b, ms, fs, f. repeat split; try assumption.
Qed.
(** The component is open. *)
Theorem slot_present : forall h W r, session h = OK W -> In r (slots ++ misplaced) -> loaded W (fst (sl_type r)) <> None ->
  exists b ms fs o f, schema W (fst (sl_type r)) (snd (sl_type r)) = Some (TSeq b ms fs, o) /\ fnames fs = sl_names r /\
    In f fs /\ fname f = sl_component r /\ fopen f = Some (sl_governor r, sl_registry r).
Proof.
  intros h W r E I L. destruct (slot_type h W r E I L) as (t & o & HS & H). destruct (has_slot_sound r t H) as (b & ms & fs & f & -> & N & F & O & _).
  apply find_some in F. destruct F as [F1 F2]. apply String.eqb_eq in F2. exists b, ms, fs, o, f. repeat split; assumption.
Qed.
(** Decoding with decodeOpenTypes fills it with objects of the type that the registry holds
    for the governor. *)
Theorem slot_opens : forall h W r t o s v rest, session h = OK W -> In r (slots ++ misplaced) ->
  schema W (fst (sl_type r)) (snd (sl_type r)) = Some (t, o) -> decode_open (reg_of W) t s = Ok (v, rest) ->
  exists b ms fs ws, t = TSeq b ms fs /\ v = VSeq ws /\ forall k u, gov_key (slot_of fs ws (sl_governor r)) = Some k ->
    reg_of W (sl_registry r) k = Some u -> filled_by (reg_of W) u (slot_of fs ws (sl_component r)).
Proof.
  intros h W r t o s v rest E I HS D. destruct (slot_type h W r E I (schema_loaded _ _ _ _ HS)) as (t' & o' & HS' & H).
  assert (t' = t) by congruence. subst t'. destruct (has_slot_sound r t H) as (b & ms & fs & f & -> & N & F & O & G).
  assert (V : exists ws, v = VSeq ws).
  { destruct (component_opened (reg_of W) _ b ms fs s v rest f (sl_governor r) (sl_registry r) (KeyInt 0) (TPrim KNull (meta_of (TSeq b ms fs))) D (sl_component r) F O G) as (ws & EV & _).
    exists ws. exact EV. }
  destruct V as (ws & EV). exists b, ms, fs, ws. split; [reflexivity|]. split; [exact EV|]. intros k u K U.
  destruct (component_opened (reg_of W) _ b ms fs s v rest f (sl_governor r) (sl_registry r) k u D (sl_component r) F O G) as (ws' & EV' & P).
  assert (ws' = ws) by congruence. subst ws'. exact (P K U).
Qed.
Theorem unopened_closed : forall h W m x c, session h = OK W -> In ((m, x), c) unopened -> loaded W m <> None ->
  exists b ms fs o, schema W m x = Some (TSeq b ms fs, o) /\ In c (fnames fs) /\ forall f, In f fs -> fopen f = None.
Proof.
  intros h W m x c E I L. pose proof (proj1 (forallb_forall _ _) (proj1 (proj2 (proj2 (proj2 (proj2 T_more))))) _ I) as K. unfold closed_in in K. cbn [fst snd] in K.
  rewrite (schema_eq T_chains h W m x E L). destruct (schema_in T m x) as [[t o]|]; [|discriminate K].
  destruct t as [|b ms fs| |]; try discriminate K. cbn [closed] in K. apply andb_true_iff in K. destruct K as [K1 K2].
  exists b, ms, fs, o. split; [reflexivity|]. split.
  - apply existsb_exists in K1. destruct K1 as (f & F & Q). apply String.eqb_eq in Q. subst c. unfold fnames. exact (in_map fname fs f F).
  - intros f F. pose proof (proj1 (forallb_forall _ _) K2 f F) as Q. cbv beta in Q. destruct (fopen f); [discriminate Q|reflexivity].
Qed.
(** The types with narrower constraints refuse a value of the RFC. *)
Theorem tight_refuses : forall h W m x v, session h = OK W -> loaded W m <> None -> In ((m, x), v) loose -> In (m, x) tight ->
  exists s t b, definition m x = Some s /\ schema W m x = Some (t, None) /\ has s v = true /\ DER s v = Some b /\ decode t b = Err.
Proof.
  intros h W m x v E L I TI.
  assert (F : In ((m, x), v) (filter (fun e => mem2 tight (fst e)) loose)).
  { apply filter_In. split; [exact I|]. cbn [fst]. unfold mem2. apply existsb_exists. exists (m, x). split; [exact TI|]. cbn [fst snd]. rewrite !String.eqb_refl. reflexivity. }
  destruct (shown_everywhere h W m x v E L refuses _ (proj1 T_more) F) as (s & t & D & HS & R).
  unfold refuses in R. apply andb_true_iff in R. destruct R as [R1 R2]. destruct (DER s v) as [b|] eqn:ED; [|discriminate R2].
  exists s, t, b. repeat split; try assumption. destruct (decode t b); [discriminate R2|reflexivity|discriminate R2|discriminate R2].
Qed.

(** ** Open components carry what is registered for them *)

Lemma everywhere_below : forall P u t, inside u t -> everywhere P t = true -> everywhere P u = true.
Proof.
  intros P u t H. induction H as [t|u s m fs f I _ IH|u m fs f I _ IH|u s m t _ IH]; intro E; [exact E| | |];
    cbn [everywhere] in E; apply andb_true_iff in E; destruct E as [_ E]; try rewrite everywhere_go in E.
  - exact (IH (proj1 (forallb_forall _ _) E f I)).
  - exact (IH (proj1 (forallb_forall _ _) E f I)).
  - exact (IH E).
Qed.
Lemma untagged_carries : forall t u, untagged_any t = true -> carries t u.
Proof.
  intros t u H. destruct t as [q m| | |]; try discriminate H. destruct q; try discriminate H. exists KAny, m. split; [reflexivity|]. split; [left; reflexivity|].
  left. cbn [untagged_any] in H. destruct (tags m); [reflexivity|discriminate H].
Qed.
Lemma carrier_sound : forall h W t, session h = OK W -> everywhere (carrier table) t = true -> carrying (reg_of W) t.
Proof.
  intros h W t E K s m fs f n d k u IN I O G NS. pose proof (everywhere_inside _ _ _ IN K) as Q. cbn [carrier] in Q.
  pose proof (proj1 (forallb_forall _ _) Q f I) as P. cbv beta in P. rewrite O in P. clear Q K.
  destruct (fpres f) eqn:FP; try discriminate P; (split; [discriminate|]);
    (destruct (untagged_any (element (ftype f))) eqn:U; [exact (untagged_carries _ _ U)|]);
    unfold reg_of in G; (destruct (reg_get W d k) as [[u' o]|] eqn:RG; [|discriminate G]); assert (u' = u) by congruence; subst u';
    destruct (reg_get_registered _ _ _ _ _ E RG) as (m' & _ & R); apply table_complete in R;
    pose proof (proj1 (forallb_forall _ _) P _ R) as X; cbv beta iota in X; rewrite did_eqb_refl in X;
    (destruct (key_eqb k (snd subject_key)) eqn:KE; [|exact (carries_sound _ _ X)]);
    (destruct (did_eqb d (fst subject_key)) eqn:DE; [|exact (carries_sound _ _ X)]);
    exfalso; apply NS; apply did_eqb_sound in DE; apply key_eqb_sound in KE; subst d k; reflexivity.
Qed.
Lemma T_carry : forallb (fun q : name2 * (asn1 * option aval) => everywhere (carrier table) (fst (snd q))) (schemas_of T) = true /\
  forallb (fun q : string * (did * (key * (asn1 * option aval))) => match q with (_, (_, (_, (u, _)))) => everywhere (carrier table) u end) table = true.
Proof.
  Transparent table. unfold table. Opaque table. apply andb_true_iff. exact (proj1 (proj2 (proj2 (proj2 (proj2 (proj2 T_more)))))).
Qed.
Theorem type_carrying : forall h W m x t o, session h = OK W -> schema W m x = Some (t, o) -> carrying (reg_of W) t.
Proof.
  intros h W m x t o E HS. apply (carrier_sound h W t E).
  exact (schema_all T_chains _ (proj1 T_carry) h W m x (t, o) E HS).
Qed.
Theorem registered_carrying : forall h W d k u, session h = OK W -> reg_of W d k = Some u -> carrying (reg_of W) u.
Proof.
  intros h W d k u E G. apply (carrier_sound h W u E). unfold reg_of in G. destruct (reg_get W d k) as [[u' o]|] eqn:RG; [|discriminate G].
  assert (u' = u) by congruence. subst u'. destruct (reg_get_registered _ _ _ _ _ E RG) as (m' & _ & R). apply table_complete in R.
  exact (proj1 (forallb_forall _ _) (proj2 T_carry) _ R).
Qed.
Theorem type_reencoded : forall h W m x t o, session h = OK W -> schema W m x = Some (t, o) ->
  forall v w, keeps (reg_of W) t v w -> encode t w = encode t v.
Proof.
  intros h W m x t o E HS v w. apply reencoded.
  - intros d k u G. exact (registered_carrying h W d k u E G).
  - exact (type_carrying h W m x t o E HS).
Qed.

End codec.
