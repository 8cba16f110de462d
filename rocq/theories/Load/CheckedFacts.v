(** What the computation of Load/Checked.v says about every session. *)
From Coq Require Import List String ZArith NArith Bool Lia.
From Verif Require Import Py.Syntax Asn1.Types Py.Eval Asn1.EqbFacts Gen.All
  Asn1.Bytes Asn1.Der Asn1.Wf Asn1.RoundTrip Asn1.RoundTrip2 Asn1.Open Asn1.Total Asn1.Inside Asn1.Defaults Asn1.OpenDepth Asn1.Nesting
  Load.Import Load.ImportFacts Load.Table Load.Computed Load.Registry Load.Session Load.Schemas Load.Checked.
Import ListNotations.
Open Scope string_scope.
Open Scope list_scope.

Opaque all_modules T nesting depth.

Section codec.
Context {Cdc : codec}.

Lemma T_schema_checks : schema_checks T = true.
Proof.
  pose proof schemas_computed as K. Transparent T. unfold T. Opaque T.
  destruct (build load_order []) as [T0|]; [exact K|discriminate].
Qed.

Lemma parts : forall T, schema_checks T = true -> chains_ok T = true /\ forallb schema_ok (schemas_of T) = true /\
  forallb (fun e : name2 * aval => lost (schema_in T (fst (fst e)) (snd (fst e))) (snd e)) ambiguous = true /\
  forallb (fun n : name2 => has_ungoverned (schema_in T (fst n) (snd n))) misgoverned = true /\
  forallb (fun n : name2 => clashes (schema_in T (fst n) (snd n))) clashing = true /\
  forallb (fun n : name2 => unfinished (schema_in T (fst n) (snd n))) templates = true /\
  forallb entry_ok (table_of T) = true.
Proof.
  intros T K. unfold schema_checks in K. apply andb_true_iff in K. destruct K as [_ K].
  do 6 (apply andb_true_iff in K; destruct K as [?H K]). repeat split; assumption.
Qed.
Definition T_parts := parts T T_schema_checks.
Lemma T_shallow : forallb shallow (schemas_of T) = true /\ forallb shallow_entry (table_of T) = true.
Proof. pose proof T_schema_checks as K. unfold schema_checks in K. apply andb_true_iff in K. destruct K as [K _]. apply andb_true_iff in K. exact K. Qed.
Lemma T_chains : chains_ok T = true. Proof. exact (proj1 T_parts). Qed.

Lemma mem2_in : forall l q, mem2 l q = true -> In q l.
Proof.
  intros l [a b] H. apply existsb_exists in H. destruct H as ([x y] & I & E). cbn [fst snd] in E.
  apply andb_true_iff in E. destruct E as [E F]. apply String.eqb_eq in E. apply String.eqb_eq in F. subst. exact I.
Qed.

Section type.
  Variables (h : list string) (W : world) (m x : string) (t : asn1) (o : option aval).
  Hypothesis E : session h = OK W.
  Hypothesis HS : schema W m x = Some (t, o).

  Lemma type_ok : schema_ok ((m, x), (t, o)) = true.
  Proof. exact (schema_all T_chains schema_ok (proj1 (proj2 T_parts)) h W m x (t, o) E HS). Qed.

  Lemma type_wf : ~ In (m, x) ambiguous_types -> wf t = true.
  Proof.
    intro N. pose proof type_ok as K. apply andb_true_iff in K. destruct K as [K _]. apply orb_true_iff in K.
    destruct K as [K|K]; [exact K|]. apply mem2_in in K. contradiction.
  Qed.
  Lemma type_apart : ~ In (m, x) clashing -> everywhere alts_apart t = true.
  Proof.
    intro N. pose proof type_ok as K. apply andb_true_iff in K. destruct K as [_ K].
    apply andb_true_iff in K. destruct K as [K _]. apply orb_true_iff in K.
    destruct K as [K|K]; [exact K|]. apply mem2_in in K. contradiction.
  Qed.
  Lemma type_names : everywhere names_ok t = true.
  Proof. pose proof type_ok as K. do 3 (apply andb_true_iff in K; destruct K as [?H K]). exact H1. Qed.
  Lemma type_governed : ~ In (m, x) misgoverned -> everywhere governed t = true.
  Proof.
    intro N. pose proof type_ok as K. do 4 (apply andb_true_iff in K; destruct K as [?H K]). apply orb_true_iff in H2.
    destruct H2 as [H2|H2]; [exact H2|]. apply mem2_in in H2. contradiction.
  Qed.
  Lemma type_defaults : everywhere plain_defaults t = true.
  Proof. pose proof type_ok as K. do 5 (apply andb_true_iff in K; destruct K as [?H K]). exact H3. Qed.
  Lemma type_open_plain : everywhere open_plain t = true.
  Proof. pose proof type_ok as K. do 6 (apply andb_true_iff in K; destruct K as [?H K]). exact H4. Qed.
  Lemma type_value : forall v, o = Some v -> value_ok (m, x) t v = true.
  Proof. intros v EO. pose proof type_ok as K. do 6 (apply andb_true_iff in K; destruct K as [?H K]). rewrite EO in K. exact K. Qed.

  (** The round trip, without open types. *)
  Lemma type_round_trip : ~ In (m, x) ambiguous_types -> forall v bs rest, conf None t v = true ->
    encode t v = Ok bs -> decode t (bs ++ rest) = Ok (v, rest).
  Proof. intros N v bs rest. exact (plain_round_trip t v bs rest (type_wf N)). Qed.
  Lemma type_encodes : ~ In (m, x) ambiguous_types -> forall v, conf None t v = true ->
    encode t v = Huge \/ exists bs, encode t v = Ok bs.
  Proof. intros N v. exact (plain_encode_total t v (type_wf N)). Qed.
  Lemma type_prefix_free : ~ In (m, x) ambiguous_types -> forall v w bv bw rest, conf None t v = true -> conf None t w = true ->
    encode t v = Ok bv -> encode t w = Ok bw -> bw = bv ++ rest -> v = w /\ rest = [].
  Proof.
    intros N v w bv bw rest CV CW EV EW B. pose proof (type_round_trip N w bw [] CW EW) as R2. rewrite app_nil_r, B in R2.
    rewrite (type_round_trip N v bv rest CV EV) in R2. inversion R2; auto.
  Qed.

  Lemma type_choices : ~ In (m, x) clashing -> forall mc alts, inside (TChoice mc alts) t ->
    forall i j f g a b, i <> j -> nth_error alts i = Some f -> nth_error alts j = Some g ->
    starts (ftype f) a -> starts (ftype g) b -> tcls a <> tcls b \/ tnum a <> tnum b.
  Proof. intros N mc alts I. exact (alts_apart_sound mc alts (everywhere_inside _ _ _ I (type_apart N))). Qed.

  Lemma type_names_distinct : forall u, inside u t -> NoDup (map fst (nvals (meta_of u))) /\ NoDup (map snd (nvals (meta_of u))).
  Proof. intros u I. exact (names_ok_sound u (everywhere_inside _ _ _ I type_names)). Qed.

  Lemma type_governors : ~ In (m, x) misgoverned -> forall s ms fs, inside (TSeq s ms fs) t -> forall f n d, In f fs -> fopen f = Some (n, d) ->
    exists g k mg, In g fs /\ fname g = n /\ fpres g = Req /\ ftype g = TPrim k mg /\ (k = KOid \/ k = KInt).
  Proof. intros N s ms fs I. exact (governed_sound s ms fs (everywhere_inside _ _ _ I (type_governed N))). Qed.

  Lemma type_default_spec : forall s ms fs, inside (TSeq s ms fs) t -> forall f, In f fs -> fpres f = Def -> ctruthy (spec ms) = false.
  Proof.
    intros s ms fs I f F D. pose proof (everywhere_inside _ _ _ I type_defaults) as K. cbn [plain_defaults] in K.
    apply orb_true_iff in K. destruct K as [K|K]; [exact (proj1 (negb_true_iff _) K)|].
    apply negb_true_iff in K. assert (X : existsb (fun f => match fpres f with Def => true | _ => false end) fs = true).
    { apply existsb_exists. exists f. rewrite D. auto. } congruence.
  Qed.
End type.

Lemma default_slot : forall fs vs ws, slots3 default_omitted fs vs ws -> vs = ws \/ exists f, In f fs /\ fpres f = Def.
Proof.
  intros fs vs ws H. induction H as [|f fs v vs w ws R H IH]; [left; reflexivity|].
  destruct IH as [->|(g & I & D)]; [|right; exists g; split; [right; exact I|exact D]].
  destruct R as [->|(P & _)]; [left; reflexivity|right; exists f; split; [left; reflexivity|exact P]].
Qed.

(** C27, for every SEQUENCE or SET type occurring in an exported type. *)
Lemma type_default_omitted : forall h W m x t o s ms fs vs ws, session h = OK W -> schema W m x = Some (t, o) ->
  inside (TSeq s ms fs) t -> slots3 default_omitted fs vs ws ->
  encode (TSeq s ms fs) (VSeq vs) = encode (TSeq s ms fs) (VSeq ws).
Proof.
  intros h W m x t o s ms fs vs ws E HS I H. destruct (default_slot _ _ _ H) as [->|(f & F & D)]; [reflexivity|].
  exact (default_not_encoded s ms fs vs ws (type_default_spec h W m x t o E HS s ms fs I f F D) H).
Qed.

Lemma wf_fields_inside : forall fs f, forallb wf_field fs = true -> In f fs -> wf (ftype f) = true.
Proof.
  intros fs f H I. pose proof (proj1 (forallb_forall _ _) H f I) as K. destruct f as [n p t d o]. cbn [wf_field] in K.
  unfold wf_field in K. cbn [ftype fpres fdef fopen] in *.
  apply andb_true_iff in K. destruct K as [K _]. apply andb_true_iff in K. exact (proj1 K).
Qed.
Lemma wf_inside : forall u t, inside u t -> wf t = true -> wf u = true.
Proof.
  intros u t H. induction H as [t|u s m fs f I _ IH|u m fs f I _ IH|u s m t _ IH]; intro K; [exact K| | |].
  - rewrite wf_seq in K. apply andb_true_iff in K. destruct K as [_ K]. exact (IH (wf_fields_inside _ _ K I)).
  - rewrite wf_choice in K. apply andb_true_iff in K. destruct K as [_ K]. exact (IH (wf_fields_inside _ _ K I)).
  - cbn [wf] in K. apply andb_true_iff in K. destruct K as [_ K]. exact (IH K).
Qed.

Lemma type_default_restored : forall h W m x t o s ms fs vs ws bs rest, session h = OK W -> schema W m x = Some (t, o) ->
  ~ In (m, x) ambiguous_types -> inside (TSeq s ms fs) t -> slots3 default_omitted fs vs ws ->
  conf None (TSeq s ms fs) (VSeq vs) = true -> encode (TSeq s ms fs) (VSeq ws) = Ok bs ->
  decode (TSeq s ms fs) (bs ++ rest) = Ok (VSeq vs, rest).
Proof.
  intros h W m x t o s ms fs vs ws bs rest E HS N I H C EN.
  rewrite <- (type_default_omitted h W m x t o s ms fs vs ws E HS I H) in EN.
  exact (plain_round_trip _ _ _ rest (wf_inside _ _ I (type_wf h W m x t o E HS N)) C EN).
Qed.

(** Exceptions are exceptions. *)
Lemma schema_is : forall h W m x, session h = OK W -> loaded W m <> None -> schema W m x = schema_in T m x.
Proof. exact (schema_eq T_chains). Qed.

Lemma ambiguous_lost : forall h W m x v t o, session h = OK W -> In ((m, x), v) ambiguous -> schema W m x = Some (t, o) ->
  conf None t v = true /\ exists bs, encode t v = Ok bs /\ forall rest, decode t bs <> Ok (v, rest).
Proof.
  intros h W m x v t o E I HS. pose proof (schema_loaded _ _ _ _ HS) as L. rewrite (schema_is h W m x E L) in HS.
  destruct T_parts as (_ & _ & K & _). pose proof (proj1 (forallb_forall _ _) K _ I) as Q. cbv beta in Q. cbn [fst snd] in Q.
  rewrite HS in Q. clear K HS E. cbn [lost] in Q. apply andb_true_iff in Q. destruct Q as [C Q]. split; [exact C|].
  destruct (encode t v) as [b| | |]; try discriminate. exists b. split; [reflexivity|]. intros rest D. rewrite D in Q.
  rewrite (proj2 eqb_refl v) in Q. discriminate.
Qed.
Lemma misgoverned_never : forall h W m x t o Op s v rest, session h = OK W -> In (m, x) misgoverned -> schema W m x = Some (t, o) ->
  decode_with (Some Op) t s <> Ok (v, rest).
Proof.
  intros h W m x t o Op s v rest E I HS. pose proof (schema_loaded _ _ _ _ HS) as L. rewrite (schema_is h W m x E L) in HS.
  destruct T_parts as (_ & _ & _ & K & _). pose proof (proj1 (forallb_forall _ _) K _ I) as Q. cbv beta in Q. cbn [fst snd] in Q.
  rewrite HS in Q. clear K HS E. unfold has_ungoverned in Q. destruct t as [|iss ms fs| |]; try discriminate.
  apply existsb_exists in Q. destruct Q as (f & F & Q). apply andb_true_iff in Q. destruct Q as [U R].
  apply (ungoverned_never_opens Op iss ms fs f F); [|exact U]. destruct (fpres f); [reflexivity|discriminate|discriminate].
Qed.

Lemma res_eqb_ok : forall a b, res_eqb a (Ok b) = true -> a = Ok b.
Proof.
  intros [x| | |] b H; try discriminate. cbn in H. apply (list_eqb_sound N.eqb) in H; [congruence|].
  intros u v E. apply N.eqb_eq, E.
Qed.
(** C40 *)
Lemma value_recodes : forall h W m x t v, session h = OK W -> schema W m x = Some (t, Some v) -> (forall a, v <> VOid a) ->
  ~ In (m, x) templates ->
  exists bs v', encode t v = Ok bs /\ decode t bs = Ok (v', []) /\ encode t v' = Ok bs.
Proof.
  intros h W m x t v E HS NO N. pose proof (type_value h W m x t (Some v) E HS v eq_refl) as K.
  assert (Q : recodes t v = true).
  { destruct v; try (exfalso; exact (NO _ eq_refl)); cbn [value_ok] in K; apply orb_true_iff in K; destruct K as [K|K]; try exact K;
    apply andb_true_iff in K; destruct K as [K _]; apply mem2_in in K; contradiction. }
  clear K HS E N.
  unfold recodes in Q. destruct (encode t v) as [b| | |] eqn:EV; try discriminate.
  destruct (decode t b) as [[v' [|]]| | |] eqn:D; try discriminate. apply res_eqb_ok in Q. eauto.
Qed.
Lemma oid_valid : forall h W m x t a, session h = OK W -> schema W m x = Some (t, Some (VOid a)) -> valid_oid a = true.
Proof. intros h W m x t a E HS. exact (type_value h W m x t (Some (VOid a)) E HS (VOid a) eq_refl). Qed.
Lemma template_fails : forall h W m x t o, session h = OK W -> In (m, x) templates -> schema W m x = Some (t, o) ->
  exists v, o = Some v /\ encode t v = Err.
Proof.
  intros h W m x t o E I HS. pose proof (schema_loaded _ _ _ _ HS) as L. rewrite (schema_is h W m x E L) in HS.
  destruct T_parts as (_ & _ & _ & _ & _ & K & _). pose proof (proj1 (forallb_forall _ _) K _ I) as Q. cbv beta in Q. cbn [fst snd] in Q.
  rewrite HS in Q. clear K HS E. unfold unfinished in Q. destruct o as [v|]; [|discriminate]. exists v. split; [reflexivity|].
  destruct (encode t v); [discriminate|reflexivity|discriminate|discriminate].
Qed.

(** ** Registries *)

(** What the registries of a world hold, as used by the decoder. *)
Definition reg_of (W : world) : Open.registry := fun d k => match reg_get W d k with Some (t, _) => Some t | None => None end.

Lemma registered_ok : forall h W d k t, session h = OK W -> reg_of W d k = Some t ->
  everywhere open_plain t = true /\ (k <> statusInfoV2 -> wf t = true).
Proof.
  intros h W d k t E G. unfold reg_of in G. destruct (reg_get W d k) as [[t' o]|] eqn:R; [|discriminate].
  assert (t' = t) by congruence. subst t'. destruct (reg_get_registered _ _ _ _ _ E R) as (m & _ & RG).
  pose proof (table_complete _ _ _ _ RG) as I. destruct T_parts as (_ & _ & _ & _ & _ & _ & K).
  pose proof (proj1 (forallb_forall _ _) K _ I) as Q. clear K I RG R E G. unfold entry_ok in Q.
  apply andb_true_iff in Q. destruct Q as [OP Q]. split; [exact OP|]. intro N. apply orb_true_iff in Q.
  destruct Q as [Q|Q]; [exact Q|]. apply key_eqb_sound in Q. contradiction.
Qed.

Lemma registered_shallow : forall h W d k t, session h = OK W -> reg_of W d k = Some t -> (height t <= 21)%nat.
Proof.
  intros h W d k t E G. unfold reg_of in G. destruct (reg_get W d k) as [[t' o]|] eqn:R; [|discriminate G].
  assert (t' = t) by congruence. subst t'. destruct (reg_get_registered _ _ _ _ _ E R) as (m & _ & RG).
  pose proof (table_complete _ _ _ _ RG) as I. pose proof (proj1 (forallb_forall _ _) (proj2 T_shallow) _ I) as Q.
  cbn beta iota delta [shallow_entry] in Q. apply Nat.leb_le. exact Q.
Qed.
(** C64 *)
Lemma type_levels : forall h W m x t o, session h = OK W -> schema W m x = Some (t, o) -> forall s v rest, decode t s = Ok (v, rest) -> (levels v <= 21)%nat.
Proof.
  intros h W m x t o E HS s v rest H. pose proof (schema_all T_chains shallow (proj1 T_shallow) h W m x (t, o) E HS) as Q.
  unfold shallow in Q; cbn [fst snd] in Q. apply Nat.leb_le in Q. apply decode_levels in H. lia.
Qed.
Lemma type_open_levels : forall h W m x t o, session h = OK W -> schema W m x = Some (t, o) ->
  forall s v rest, decode_open (reg_of W) t s = Ok (v, rest) -> (levels v <= 21 * (List.length s + 2))%nat.
Proof.
  intros h W m x t o E HS s v rest H. pose proof (schema_all T_chains shallow (proj1 T_shallow) h W m x (t, o) E HS) as Q.
  unfold shallow in Q; cbn [fst snd] in Q. apply Nat.leb_le in Q.
  apply (decode_open_levels (reg_of W) 21 (fun d k u G => registered_shallow h W d k u E G)) in H. lia.
Qed.

(** C37 *)
Lemma type_open_round_trip : forall h W m x t o, session h = OK W -> schema W m x = Some (t, o) -> ~ In (m, x) ambiguous_types ->
  forall v bs rest, conf_open (reg_of W) t v -> encode t v = Ok bs -> decode_open (reg_of W) t (bs ++ rest) = Ok (v, rest).
Proof.
  intros h W m x t o E HS N v bs rest. apply decode_open_round_trip.
  - intros d k u G. exact (proj1 (registered_ok h W d k u E G)).
  - exact (type_wf h W m x t o E HS N).
  - exact (type_open_plain h W m x t o E HS).
Qed.

(** A test of the type m.x after the imports [h]. *)
Definition check (h : list string) (m x : string) (f : world -> asn1 -> bool) : bool :=
  match session h with
  | OK W => match schema W m x with Some (t, _) => f W t | None => false end
  | _ => false
  end.
Lemma check_sound h m x f : check h m x f = true ->
  exists W t o, session h = OK W /\ schema W m x = Some (t, o) /\ f W t = true.
Proof.
  unfold check. destruct (session h) as [W|e|e]; intro H; [|discriminate H|discriminate H].
  destruct (schema W m x) as [[t o]|] eqn:HS; [|discriminate H]. exists W, t, o. split; [reflexivity|]. split; [exact HS|exact H].
Qed.
(** m.x is the same object in every session that has loaded m. *)
Lemma check_everywhere h m x f : check h m x (fun _ => f) = true -> forall h' W, session h' = OK W -> loaded W m <> None ->
  exists t o, schema W m x = Some (t, o) /\ f t = true.
Proof.
  intros H h' W E L. destruct (check_sound _ _ _ _ H) as (W0 & t & o & E0 & HS & K).
  exists t, o. split; [|exact K]. rewrite (schema_is h' W m x E L). rewrite <- (schema_is h W0 m x E0 (schema_loaded _ _ _ _ HS)). exact HS.
Qed.
Lemma check_type h m x f : check h m x (fun _ => f) = true -> forall h' W t o, session h' = OK W -> schema W m x = Some (t, o) -> f t = true.
Proof.
  intros H h' W t o E HS. destruct (check_everywhere h m x f H h' W E (schema_loaded _ _ _ _ HS)) as (t' & o' & HS' & K).
  rewrite HS in HS'. assert (t = t') by congruence. subst t'. exact K.
Qed.

End codec.
