(** Constructing values: m.x(a), for classes of primitive types. *)
From Coq Require Import List String ZArith NArith Bool Lia.
From Verif Require Import Py.Syntax Asn1.Types Py.Eval Load.Import Load.Table Load.Computed Load.Schemas.
Import ListNotations.
Open Scope string_scope.
Open Scope list_scope.

Opaque T nesting depth.

(** The Python expression m.x(args) after the imports that led to [W]. *)
Definition call_class (W : world) (m x : string) (args : list pyval) : r pyval :=
  match loaded W m with
  | Some R => match lookup (m_ns R) x with
              | Some (PClass c) => instantiate (schema_env (loaded W) m R) c args []
              | Some _ => Stuck "not a class"
              | None => Raise "AttributeError"
              end
  | None => Raise "NameError"
  end.
Definition is_class (W : world) (m x : string) : Prop :=
  exists R c, loaded W m = Some R /\ lookup (m_ns R) x = Some (PClass c).

(** One argument: the value is converted (pretty_in) and checked against the constraint. *)
Lemma call_prim : forall W m x k mt a, is_class W m x -> schema W m x = Some (TPrim k mt, None) ->
  call_class W m x [a] = mk_prim k mt (Some a).
Proof.
  intros W m x k mt a (R & c & L & C) HS. unfold call_class. unfold schema in HS. rewrite L, C in *. cbn [object_of] in HS.
  unfold instantiate in *. destruct (class_root depth _ c) as [root|]; [|discriminate HS].
  destruct (builtin_kind root) as [[bk ts]|]; [|discriminate HS]. destruct (class_attr depth _ c "__init__"); [discriminate HS|].
  revert HS. generalize (class_attr depth (schema_env (loaded W) m R) c "tagSet"), (class_attr depth (schema_env (loaded W) m R) c "subtypeSpec"),
    (class_attr depth (schema_env (loaded W) m R) c "namedValues"), (class_attr depth (schema_env (loaded W) m R) c "defaultValue"),
    (class_attr depth (schema_env (loaded W) m R) c "sizeSpec"), (class_attr depth (schema_env (loaded W) m R) c "componentType").
  intros aT aS aN aD aZ aC HS. unfold Eval.build in *. unfold kw_tags, kw_cons in *.
  change (@lookup pyval [] "tagSet") with (@None pyval) in *. change (@lookup pyval [] "subtypeSpec") with (@None pyval) in *.
  destruct aT as [aT|]; [|discriminate HS]. cbn [bind] in *. destruct aT; try discriminate HS. cbn [bind] in *.
  destruct aS as [aS|]; [|discriminate HS]. cbn [bind] in *. destruct aS; try discriminate HS. cbn [bind] in *.
  destruct bk as [p|s|s|].
  - change (known_kw ["tagSet"; "subtypeSpec"; "namedValues"; "value"] []) with true in *. cbn [negb] in *.
    change (@lookup pyval [] "namedValues") with (@None pyval) in *. change (@lookup pyval [] "value") with (@None pyval) in *.
    assert (NV : forall nv, match (match aD with
          | None => mk_prim p (mkM l c0 nv (CInter [])) None
          | Some d => do a <- pretty_in p nv d; OK (PInst (TPrim p (mkM l c0 nv (CInter []))) (Some a))
          end) with OK (PInst t v) => Some (t, v) | _ => None end = Some (TPrim k mt, None) ->
        p = k /\ mkM l c0 nv (CInter []) = mt).
    { clear HS. intros nv HS. destruct aD as [d|]; [destruct (pretty_in p nv d); discriminate HS|]. cbn [mk_prim] in HS. inversion HS; split; reflexivity. }
    destruct p; (destruct aN as [aN|]; [destruct aN|]); cbn [bind] in *; try discriminate HS; destruct (NV _ HS) as [<- <-]; reflexivity.
  - exfalso.
    change (known_kw ["tagSet"; "subtypeSpec"; "sizeSpec"; "componentType"] []) with true in HS. cbn [negb] in HS.
    destruct aZ as [aZ|]; [|discriminate HS]. cbn [bind] in HS. change (@lookup pyval [] "") with (@None pyval) in HS.
    change (@lookup pyval [] "sizeSpec") with (@None pyval) in HS.
    destruct aZ; try discriminate HS. cbn [bind] in HS. destruct (move_size c0 c1); try discriminate HS. cbn [bind] in HS.
    destruct aC as [aC|]; [|discriminate HS]. cbn [bind lookup] in HS. destruct aC; discriminate HS.
  - exfalso.
    change (known_kw ["tagSet"; "subtypeSpec"; "sizeSpec"; "componentType"] []) with true in HS. cbn [negb] in HS.
    destruct aZ as [aZ|]; [|discriminate HS]. cbn [bind] in HS. change (@lookup pyval [] "") with (@None pyval) in HS.
    change (@lookup pyval [] "sizeSpec") with (@None pyval) in HS.
    destruct aZ; try discriminate HS. cbn [bind] in HS. destruct (move_size c0 c1); try discriminate HS. cbn [bind] in HS.
    destruct aC as [aC|]; [|discriminate HS]. cbn [bind lookup] in HS. destruct aC; discriminate HS.
  - exfalso.
    change (known_kw ["tagSet"; "subtypeSpec"; "sizeSpec"; "componentType"] []) with true in HS. cbn [negb] in HS.
    destruct aZ as [aZ|]; [|discriminate HS]. cbn [bind] in HS. change (@lookup pyval [] "") with (@None pyval) in HS.
    change (@lookup pyval [] "sizeSpec") with (@None pyval) in HS.
    destruct aZ; try discriminate HS. cbn [bind] in HS. destruct (move_size c0 c1); try discriminate HS. cbn [bind] in HS.
    destruct aC as [aC|]; [|discriminate HS]. cbn [bind lookup] in HS. destruct aC; discriminate HS.
Qed.
