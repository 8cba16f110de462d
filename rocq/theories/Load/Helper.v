(** The functions the modules define: _OID and _buildOid. *)
From Coq Require Import List String ZArith NArith Bool Lia.
From Verif Require Import Py.Syntax Asn1.Types Py.Eval Load.Import Load.ImportFacts Load.Table Load.Computed Load.Registry Load.Session Load.Schemas.
Import ListNotations.
Open Scope string_scope.
Open Scope list_scope.

Opaque T nesting.

(** The text the 19 copies share, e.g. rfc5280.py:30-38. *)
Definition helper_body : list stmt := [
  set "output" (EList []);
  SFor "x" (call (EName "tuple") [EName "components"]) [
    SIf (call (EName "isinstance") [EName "x"; univ "ObjectIdentifier"])
      [SExpr (call (qual "output" "extend") [call (EName "list") [EName "x"]])]
      [SExpr (call (qual "output" "append") [call (EName "int") [EName "x"]])]];
  SReturn (call (univ "ObjectIdentifier") [EName "output"])].

(** ** What it returns *)

(** The arguments: identifiers and numbers. *)
Inductive piece := Arcs (mt : meta) (a : list N) | Arc (z : Z).
Definition argument (p : piece) : pyval :=
  match p with Arcs mt a => PInst (TPrim KOid mt) (Some (VOid a)) | Arc z => PInt z end.
Definition pieces (p : piece) : list N := match p with Arcs _ a => a | Arc z => [Z.to_N z] end.
Definition natural (p : piece) : bool := match p with Arcs _ _ => true | Arc z => Z.leb 0 z end.
Definition plain_oid : asn1 := TPrim KOid (mkM [mkTag Universal false 6] (CInter []) [] (CInter [])).

Definition numbers (p : piece) : list pyval := match p with Arcs _ a => map (fun n => PInt (Z.of_N n)) a | Arc z => [PInt z] end.

Lemma all_some_app : forall A B (f : A -> option B) l1 l2, Eval.all_some f (l1 ++ l2) =
  match Eval.all_some f l1, Eval.all_some f l2 with Some a, Some b => Some (a ++ b) | _, _ => None end.
Proof.
  intros A B f l1 l2. induction l1 as [|a l1 IH]; cbn; [destruct (Eval.all_some f l2); reflexivity|].
  rewrite IH. destruct (f a); [|reflexivity]. destruct (Eval.all_some f l1); [|reflexivity]. destruct (Eval.all_some f l2); reflexivity.
Qed.
Lemma arcs_of_numbers : forall p, Eval.all_some as_arc (numbers p) = if natural p then Some (pieces p) else None.
Proof.
  intros [mt a|z]; cbn [numbers natural pieces].
  - induction a as [|n a IH]; [reflexivity|]. cbn [map Eval.all_some]. rewrite IH. unfold as_arc. cbn [as_int].
    destruct (Z.leb_spec 0 (Z.of_N n)); [|lia]. rewrite N2Z.id. reflexivity.
  - cbn [Eval.all_some as_arc as_int]. destruct (Z.leb 0 z); reflexivity.
Qed.
Lemma arcs_of_all : forall ps, Eval.all_some as_arc (flat_map numbers ps) = if forallb natural ps then Some (flat_map pieces ps) else None.
Proof.
  induction ps as [|p ps IH]; [reflexivity|]. cbn [flat_map forallb]. rewrite all_some_app, arcs_of_numbers, IH.
  destruct (natural p); cbn [andb]; [|reflexivity]. destruct (forallb natural ps); reflexivity.
Qed.

Section run.
  Variables (M : string) (i : string -> option modres) (g : ns) (cl : list (string * classdef)).
  Let E := Py.Eval.mkE M i [] g cl.
  Hypothesis HU : lookup g "univ" = Some (PLib "pyasn1.type.univ").
  Hypothesis HT : lookup g "tuple" = None.
  Hypothesis HI : lookup g "isinstance" = None.
  Hypothesis HL : lookup g "list" = None.
  Hypothesis HN : lookup g "int" = None.

  Definition invariant (l : ns) (xs : list pyval) : Prop :=
    lookup l "output" = Some (PList xs) /\ lookup l "univ" = None /\ lookup l "isinstance" = None /\ lookup l "list" = None /\ lookup l "int" = None.

  Let loop_body := [SIf (call (EName "isinstance") [EName "x"; univ "ObjectIdentifier"])
      [SExpr (call (qual "output" "extend") [call (EName "list") [EName "x"]])]
      [SExpr (call (qual "output" "append") [call (EName "int") [EName "x"]])]].

  Lemma loop_once : forall p l xs, invariant l xs ->
    exec_body E loop_body (("x", argument p) :: l) = OK (Next (("output", PList (xs ++ numbers p)) :: ("x", argument p) :: l)).
  Proof.
    intros p l xs (O & U & I & L & N). destruct p as [mt a|z];
    cbn [exec_body loop_body exec_fun eval call univ qual bind]; unfold lookup_name; cbn [e_loc e_ns with_loc E lookup String.eqb Ascii.eqb Bool.eqb];
      rewrite ?I, ?HI, ?U, ?HU; cbn; rewrite ?L, ?HL, ?N, ?HN, ?O; reflexivity.
  Qed.
  Lemma invariant_step : forall l xs ys v, invariant l xs -> invariant (("output", PList ys) :: ("x", v) :: l) ys.
  Proof. intros l xs ys v (O & U & I & L & N). repeat split; cbn; assumption. Qed.
  Lemma loop_all : forall ps l xs, invariant l xs -> exists l', invariant l' (xs ++ flat_map numbers ps) /\
    (fix iter (vs : list pyval) (l : ns) : r flow :=
       match vs with
       | [] => OK (Next l)
       | v :: vs' => do f <- exec_body E loop_body (("x", v) :: l);
                     match f with Next l' => iter vs' l' | Return v => OK (Return v) end
       end) (map argument ps) l = OK (Next l').
  Proof.
    induction ps as [|p ps IH]; intros l xs HL0; cbn [map flat_map].
    - exists l. rewrite app_nil_r. split; [exact HL0|reflexivity].
    - destruct (IH _ _ (invariant_step l xs (xs ++ numbers p) (argument p) HL0)) as (l' & A & B).
      exists l'. rewrite app_assoc. split; [exact A|]. rewrite (loop_once p l xs HL0). cbn [bind]. exact B.
  Qed.
  Lemma helper_runs : forall ps, call_fun E (PFun M [] (Some "components") helper_body) (map argument ps) [] =
    if forallb natural ps then OK (PInst plain_oid (Some (VOid (flat_map pieces ps)))) else Raise "Malformed Object ID".
  Proof.
    intro ps. unfold call_fun. change (e_mod E) with M. rewrite String.eqb_refl.
    unfold helper_body. 
    assert (I0 : invariant [("output", PList []); ("components", PTuple (map argument ps))] []) by (repeat split).
    destruct (loop_all ps _ _ I0) as (l' & (O & U & I & L & N) & B). cbn [app] in O.
    set (out := SReturn _). cbn [exec_body]. 
    assert (S1 : exec_fun E (set "output" (EList [])) [("components", PTuple (map argument ps))] = OK (Next [("output", PList []); ("components", PTuple (map argument ps))])) by reflexivity.
    rewrite S1. cbn [bind].
    match goal with |- context [exec_fun E (SFor "x" ?e ?b) ?l] => assert (S2 : exec_fun E (SFor "x" e b) l = OK (Next l')) end.
    { cbn [exec_fun]. unfold call at 1. cbn [eval bind]. unfold lookup_name at 1. cbn [e_loc e_ns with_loc E lookup String.eqb Ascii.eqb Bool.eqb].
      rewrite HT. change (existsb (String.eqb "tuple") builtin_names) with true. cbn [bind]. unfold lookup_name at 1.
      cbn [e_loc e_ns with_loc E lookup String.eqb Ascii.eqb Bool.eqb bind apply_val].
      change (call_builtin "tuple" [PTuple (map argument ps)] []) with (OK (PTuple (map argument ps))). cbn [bind]. exact B. }
    rewrite S2. cbn [bind]. unfold out.
    assert (S3 : exec_fun E (SReturn (call (univ "ObjectIdentifier") [EName "output"])) l' =
      do v <- mk_prim KOid (mkM [mkTag Universal false 6] (CInter []) [] (CInter [])) (Some (PList (flat_map numbers ps))); OK (Return v)).
    { cbn [exec_fun call univ eval bind]. unfold lookup_name. cbn [e_loc e_ns with_loc E]. rewrite U, HU, O. reflexivity. }
    rewrite S3. unfold mk_prim. cbn [pretty_in nvals]. rewrite arcs_of_all. destruct (forallb natural ps); reflexivity.
  Qed.
End run.

(** ** Every function of the package is one of them *)

Definition expr_dec : forall a b : expr, {a = b} + {a <> b}.
Proof.
  fix go 1. intros a b. decide equality; try apply string_dec; try apply Z.eq_dec; try apply Bool.bool_dec; try apply go;
    try (apply list_eq_dec; exact go); try decide equality; try apply string_dec; try apply go; try (decide equality; try apply string_dec; apply go).
Defined.
Definition stmt_dec : forall a b : stmt, {a = b} + {a <> b}.
Proof.
  fix go 1. intros a b. decide equality; try apply string_dec; try apply expr_dec; try (apply list_eq_dec; exact go);
    try (apply list_eq_dec; exact expr_dec); try (apply list_eq_dec; exact string_dec); repeat (decide equality; try apply string_dec).
Defined.

Definition helper_names : list string := ["_OID"; "_buildOid"].
Definition is_none {A} (o : option A) : bool := match o with None => true | _ => false end.
Definition helper_ok (m : string) (g : ns) (x : string) (v : pyval) : bool :=
  match v with
  | PFun m' ps va b =>
      String.eqb m' m && existsb (String.eqb x) helper_names
      && match ps, va with [], Some a => String.eqb a "components" | _, _ => false end
      && (if list_eq_dec stmt_dec b helper_body then true else false)
      && match lookup g "univ" with Some (PLib u) => String.eqb u "pyasn1.type.univ" | _ => false end
      && is_none (lookup g "tuple") && is_none (lookup g "isinstance") && is_none (lookup g "list") && is_none (lookup g "int")
  | _ => true
  end.
Definition helpers_ok (T : tbl) : bool :=
  forallb (fun me : string * entry => let g := m_ns (e_res (snd me)) in forallb (fun xv => helper_ok (fst me) g (fst xv) (snd xv)) g) T.

(** m.x(args) after the imports that led to [W]. *)
Definition call_function (W : world) (m x : string) (args : list pyval) : r pyval :=
  match loaded W m with
  | Some R => match lookup (m_ns R) x with
              | Some f => call_fun (schema_env (loaded W) m R) f args []
              | None => Raise "AttributeError"
              end
  | None => Raise "NameError"
  end.
Definition is_function (W : world) (m x : string) : Prop :=
  exists R m' ps va b, loaded W m = Some R /\ lookup (m_ns R) x = Some (PFun m' ps va b).

Section table.
  Hypothesis HO : helpers_ok T = true.
  Lemma helper_flattens : forall h W m x, session h = OK W -> is_function W m x -> forall ps,
    call_function W m x (map argument ps) =
    if forallb natural ps then OK (PInst plain_oid (Some (VOid (flat_map pieces ps)))) else Raise "Malformed Object ID".
  Proof.
    intros h W m x ES (R & m' & ps & va & b & L & F) args.
    pose proof (loaded_finished _ _ _ _ ES L) as K. unfold finished in K. rewrite lookup_modres in K.
    destruct (lookup T m) as [e|] eqn:ET; [|discriminate K]. assert (HR : e_res e = R) by congruence.
    pose proof (proj1 (forallb_forall _ _) HO _ (lookup_in _ _ _ ET)) as C. cbv zeta in C. cbn [fst snd] in C. rewrite HR in C.
    pose proof (proj1 (forallb_forall _ _) C _ (lookup_in _ _ _ F)) as D. cbn [fst snd helper_ok] in D. clear C.
    rewrite !andb_true_iff in D. destruct D as [[[[[[[[A1 A2] A3] A4] A5] A6] A7] A8] A9].
    apply String.eqb_eq in A1. subst m'. destruct ps; [|discriminate A3]. destruct va as [va|]; [|discriminate A3].
    apply String.eqb_eq in A3. subst va. destruct (list_eq_dec stmt_dec b helper_body); [|discriminate A4]. subst b.
    destruct (lookup (m_ns R) "univ") as [u|] eqn:EU; [|discriminate A5]. destruct u as [ | | | | | | | | | |u| | | | | | | | | | | | | ]; try discriminate A5.
    apply String.eqb_eq in A5. subst u.
    assert (NO : forall A (o : option A), is_none o = true -> o = None) by (intros A [a|]; [discriminate|reflexivity]).
    unfold call_function. rewrite L, F. apply helper_runs; auto.
  Qed.
End table.
