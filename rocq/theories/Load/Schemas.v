(** The ASN.1 types a module offers: what m.x, or m.x() if it is a class, denotes. *)
From Coq Require Import List String ZArith NArith Bool Lia.
From Verif Require Import Py.Syntax Asn1.Types Py.Eval Py.Mono Asn1.EqbFacts Gen.All
  Load.Import Load.ImportFacts Load.Table Load.Computed Load.Registry Load.Session.
Import ListNotations.
Open Scope string_scope.
Open Scope list_scope.

Opaque all_modules T nesting depth.

Definition schema_env (imp : string -> option modres) (m : string) (R : modres) : env :=
  Py.Eval.mkE m imp [] (m_ns R) (m_cls R).
(** A schema object as it is used: an instance, or a class called without arguments
    (the way the tests and tools of /repo write asn1Spec=m.x()). *)
Definition object_of (imp : string -> option modres) (m : string) (R : modres) (p : pyval) : option (asn1 * option aval) :=
  match p with
  | PInst t v => Some (t, v)
  | PClass c => match instantiate (schema_env imp m R) c [] [] with
                | OK (PInst t v) => Some (t, v)
                | _ => None
                end
  | _ => None
  end.

(** m.x in world [W]. *)
Definition schema (W : world) (m x : string) : option (asn1 * option aval) :=
  match loaded W m with
  | Some R => match lookup (m_ns R) x with
              | Some p => object_of (loaded W) m R p
              | None => None
              end
  | None => None
  end.

(** The same from the module table. *)
Definition schemas_in (T : tbl) (m : string) (e : entry) : list ((string * string) * (asn1 * option aval)) :=
  let imp := t_imp T (e_clos e) in
  flat_map (fun nv : string * pyval =>
    match lookup (m_ns (e_res e)) (fst nv) with
    | Some p => match object_of imp m (e_res e) p with Some s => [((m, fst nv), s)] | None => [] end
    | None => []
    end) (m_ns (e_res e)).
Definition schemas_of (T : tbl) : list ((string * string) * (asn1 * option aval)) :=
  flat_map (fun me : string * entry => schemas_in T (fst me) (snd me)) T.

(** The base chain of every class is visible, so nothing else matters. *)
Definition chains_ok (T : tbl) : bool :=
  forallb (fun me : string * entry => let imp := t_imp T (e_clos (snd me)) in
    forallb (fun nv : string * pyval =>
      match snd nv with
      | PClass c => match class_root depth (schema_env imp (fst me) (e_res (snd me))) c with Some _ => true | None => false end
      | _ => true
      end) (m_ns (e_res (snd me)))) T.

(** The first binding of m.x in the table. *)
Definition schema_in (T : tbl) (m x : string) : option (asn1 * option aval) :=
  match lookup T m with
  | Some e => match lookup (m_ns (e_res e)) x with
              | Some p => object_of (t_imp T (e_clos e)) m (e_res e) p
              | None => None
              end
  | None => None
  end.

Lemma instantiate_same : forall E F c args kw root, env_ext E F -> class_root depth E c = Some root ->
  instantiate F c args kw = instantiate E c args kw.
Proof.
  intros E F c args kw root H ER. unfold instantiate. rewrite ER, (class_root_mono _ _ _ _ _ H ER).
  pose proof (fun a => class_attr_root _ _ _ _ a _ H ER) as K.
  rewrite (K "__init__"), (K "tagSet"), (K "subtypeSpec"), (K "namedValues"), (K "defaultValue"),
    (K "sizeSpec"), (K "componentType"). reflexivity.
Qed.

Lemma schema_env_ext : forall i j m R, ext i j -> env_ext (schema_env i m R) (schema_env j m R).
Proof. intros i j m R X. repeat split. exact X. Qed.

Section table.
  Hypothesis CH : chains_ok T = true.

  Lemma schema_eq : forall h W m x, session h = OK W -> loaded W m <> None -> schema W m x = schema_in T m x.
  Proof.
    intros h W m x E L. destruct (loaded W m) as [R|] eqn:ER; [|congruence].
    pose proof (loaded_finished _ _ _ _ E ER) as F. unfold finished in F. rewrite lookup_modres in F.
    destruct (lookup T m) as [e|] eqn:ET; [|discriminate]. assert (HR : e_res e = R) by congruence.
    unfold schema, schema_in. rewrite ER, ET, HR.
    destruct (lookup (m_ns R) x) as [p|] eqn:EP; [|reflexivity].
    destruct p; match goal with |- object_of _ _ _ (PClass _) = _ => idtac | _ => reflexivity end. cbn [object_of].
    pose proof (proj1 (forallb_forall _ _) CH _ (lookup_in _ _ _ ET)) as K. cbv beta zeta in K. cbn [fst snd] in K. rewrite HR in K.
    pose proof (proj1 (forallb_forall _ _) K _ (lookup_in _ _ _ EP)) as K2. cbv beta in K2. cbn [snd] in K2.
    destruct (class_root depth (schema_env (t_imp T (e_clos e)) m R) c) as [root|] eqn:RO; [|discriminate].
    assert (LN : loaded W m <> None) by (rewrite ER; discriminate).
    rewrite (instantiate_same _ _ c [] [] root (schema_env_ext _ _ m R (session_extends _ _ _ _ E LN ET)) RO). reflexivity.
  Qed.

  Lemma schema_in_listed : forall t m x s, schema_in t m x = Some s -> In ((m, x), s) (schemas_of t).
  Proof.
    intros t m x s H. unfold schema_in in H. destruct (lookup t m) as [e|] eqn:ET; [|discriminate].
    destruct (lookup (m_ns (e_res e)) x) as [p|] eqn:EP; [|discriminate].
    unfold schemas_of. apply in_flat_map. exists (m, e). split; [exact (lookup_in _ _ _ ET)|]. cbn [fst snd].
    unfold schemas_in. cbv zeta. apply in_flat_map. exists (x, p). split; [exact (lookup_in _ _ _ EP)|]. cbn [fst snd].
    rewrite EP, H. left. reflexivity.
  Qed.

  Lemma schema_loaded : forall W m x s, schema W m x = Some s -> loaded W m <> None.
  Proof. intros W m x s H E. unfold schema in H. rewrite E in H. discriminate. Qed.

  (** A property of all listed types holds of every type met in any session. *)
  Lemma schema_all : forall (P : (string * string) * (asn1 * option aval) -> bool), forallb P (schemas_of T) = true ->
    forall h W m x s, session h = OK W -> schema W m x = Some s -> P ((m, x), s) = true.
  Proof.
    intros P H h W m x s E HS. pose proof (schema_loaded _ _ _ _ HS) as L. rewrite (schema_eq h W m x E L) in HS.
    exact (proj1 (forallb_forall _ _) H _ (schema_in_listed _ _ _ _ HS)).
  Qed.
End table.
