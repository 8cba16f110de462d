(** Properties C13-C20 and C38: importing the modules of the package.

    Vocabulary: [session h] runs the imports of [h] in a fresh interpreter and
    returns the resulting world; [loaded W m] is the finished module [m]
    ([m_ns] its namespace, [m_cls] its classes, [m_log] the registry updates it
    made); [reg_get W d k] is what the dict [d] holds under [k]; [reach m n] is the
    closure of the modules' import statements. *)
From Coq Require Import List String ZArith NArith Bool Lia.
From Verif Require Import Py.Syntax Asn1.Types Py.Eval Gen.All
  Load.Import Load.ImportFacts Load.Table Load.Computed Load.Registry Load.Session.
Import ListNotations.
Open Scope string_scope.
Open Scope list_scope.

Definition certificateExtensionsMap : did := ("rfc5280", "certificateExtensionsMap").
Definition smimeMap : did := ("rfc5652", "cmsAttributesMap").

Definition ok_modules (x : r world) : list string := match x with OK W => map fst (w_mods W) | _ => [] end.
Definition ok_get (x : r world) (d : did) (k : key) : bool :=
  match x with OK W => match reg_get W d k with Some _ => true | None => false end | _ => false end.

(** C13: no import history raises (and none leaves the modelled fragment). *)
Theorem C13_every_import_order_succeeds : forall h, (forall m, In m h -> In m module_names) ->
  exists W, session h = OK W.
Proof. exact session_ok. Qed.
Print Assumptions C13_every_import_order_succeeds.

(** 130 modules; a history with repetitions and out of dependency order. *)
Example C13_ex : List.length module_names = 130%nat /\
  ok_modules (session ["rfc2986"; "rfc1155"; "rfc2314"; "rfc2986"])
  = ["rfc2314"; "rfc2459"; "rfc1155"; "rfc2986"; "rfc5280"].
Proof. vm_compute. split; reflexivity. Qed.

(** C14: importing what is already loaded, itself or as a dependency, leaves the
    whole world (namespaces, classes, registries) as it is. *)
Theorem C14_reimport_is_noop : forall h h2 W, session h = OK W -> (forall n, In n h2 -> loaded W n <> None) ->
  session (h ++ h2) = OK W.
Proof. intros h h2 W. exact (reimports h2 h W). Qed.
Print Assumptions C14_reimport_is_noop.

Example C14_ex : exists W, session ["rfc2986"] = OK W /\ session ["rfc2986"; "rfc5280"; "rfc2986"] = OK W.
Proof. vm_compute. eexists. split; reflexivity. Qed.

(** C15: a module is the same object graph whatever was imported before it... *)
Theorem C15_namespace_history_independent : forall h1 h2 W1 W2 m R1 R2,
  session h1 = OK W1 -> session h2 = OK W2 ->
  loaded W1 m = Some R1 -> loaded W2 m = Some R2 -> R1 = R2.
Proof. exact history_independent. Qed.
Print Assumptions C15_namespace_history_independent.

(** ... and whatever is imported after it. *)
Theorem C15_later_imports_keep_modules : forall h h2 W W2 m R,
  session h = OK W -> session (h ++ h2) = OK W2 -> loaded W m = Some R -> loaded W2 m = Some R.
Proof. exact later_imports_keep. Qed.
Print Assumptions C15_later_imports_keep_modules.

(** rfc5280 is loaded in both worlds, whose registries differ. *)
Example C15_ex :
  match session ["rfc5280"], session ["rfc3279"; "rfc2986"] with
  | OK W1, OK W2 => match loaded W1 "rfc5280", loaded W2 "rfc5280" with
                    | Some _, Some _ => negb (Nat.eqb (List.length (w_log W1)) (List.length (w_log W2)))
                    | _, _ => false
                    end
  | _, _ => false
  end = true.
Proof. vm_cast_no_check (eq_refl true). Qed.

(** C16: a key stays; so does its value, but for 11 listed keys. *)
Theorem C16_registries_only_grow : forall h h2 W W2 d k v,
  session h = OK W -> session (h ++ h2) = OK W2 -> reg_get W d k = Some v ->
  exists w, reg_get W2 d k = Some w /\ (~ In (d, k) (order_dependent ++ overridden) -> w = v).
Proof. exact registry_keeps. Qed.
Print Assumptions C16_registries_only_grow.

(** id-ce-keyUsage, registered by rfc5280. *)
Example C16_ex : ok_get (session ["rfc5280"]) certificateExtensionsMap (KeyOid [2; 5; 29; 15]%N) = true /\
  ~ In (certificateExtensionsMap, KeyOid [2; 5; 29; 15]%N) (order_dependent ++ overridden).
Proof.
  split; [vm_compute; reflexivity|]. intro H.
  repeat (destruct H as [H|H]; [inversion H|]). destruct H.
Qed.

(** C17: each [registry.update({key: value})] (and registry literal) written in a
    module has taken effect in every world in which the module is loaded: its
    target is a dict, its key an OID or integer, its value a type, the key is in
    that dict and (but for the listed keys) has that value. *)
Theorem C17_import_registers_types : forall h W m p target key_expr value_expr,
  session h = OK W -> loaded W m <> None ->
  lookup all_modules m = Some p -> In (target, (key_expr, value_expr)) (registrations p) ->
  exists d kv vv k v w, eval_in W m target = OK (PDict d) /\
    eval_in W m key_expr = OK kv /\ as_key kv = Some k /\
    eval_in W m value_expr = OK vv /\ as_item vv = Some v /\
    reg_get W d k = Some w /\ (~ In (d, k) (order_dependent ++ overridden) -> w = v).
Proof. exact text_registered. Qed.
Print Assumptions C17_import_registers_types.

(** 1209 registrations are written in the 130 modules (each update counted with the
    local dict literal it passes); rfc5035 makes one visible in cmsAttributesMap. *)
Example C17_ex :
  List.length (flat_map (fun mp => registrations (snd mp)) all_modules) = 1209%nat /\
  ok_get (session ["rfc5652"]) smimeMap (KeyOid [1; 2; 840; 113549; 1; 9; 16; 2; 47]%N) = false /\
  ok_get (session ["rfc5035"]) smimeMap (KeyOid [1; 2; 840; 113549; 1; 9; 16; 2; 47]%N) = true.
Proof. vm_compute. repeat split. Qed.

(** C18: outside the 8 listed keys, what a registry holds depends only on which
    modules were imported... *)
Theorem C18_registry_order_independent : forall h1 h2 W1 W2,
  session h1 = OK W1 -> session h2 = OK W2 -> (forall m, In m h1 <-> In m h2) ->
  forall d k, ~ In (d, k) order_dependent -> reg_get W1 d k = reg_get W2 d k.
Proof. exact same_modules_same_registries. Qed.
Print Assumptions C18_registry_order_independent.

(** ... for each of the 8 it does depend on the order of two imports... *)
Theorem C18_listed_keys_order_dependent_refuted : forall d k, In (d, k) order_dependent ->
  exists a b W1 W2, session [a; b] = OK W1 /\ session [b; a] = OK W2 /\
    exists v1 v2, reg_get W1 d k = Some v1 /\ reg_get W2 d k = Some v2 /\ v1 <> v2.
Proof. exact order_matters. Qed.
Print Assumptions C18_listed_keys_order_dependent_refuted.

(** ... and only 3 further keys ever denote two types, in worlds with different
    modules loaded. *)
Theorem C18_two_types_listed : forall h1 h2 W1 W2 d k v1 v2,
  session h1 = OK W1 -> session h2 = OK W2 ->
  reg_get W1 d k = Some v1 -> reg_get W2 d k = Some v2 -> v1 <> v2 ->
  In (d, k) (order_dependent ++ overridden).
Proof. exact two_types_listed. Qed.
Print Assumptions C18_two_types_listed.

Example C18_ex : List.length order_dependent = 8%nat /\ List.length overridden = 3%nat.
Proof. split; reflexivity. Qed.

(** C19: the two names denote the same dict object. *)
Theorem C19_cmc_controls_are_cms_attributes : forall h W, session h = OK W -> loaded W "rfc6402" <> None ->
  exists d, attribute W "rfc6402" "cmcControlAttributesMap" = Some (PDict d) /\
            attribute W "rfc5652" "cmsAttributesMap" = Some (PDict d).
Proof. exact cmc_cms_same. Qed.
Print Assumptions C19_cmc_controls_are_cms_attributes.

(** id-cmc-statusInfo, registered through rfc6402's name, is found in rfc5652's. *)
Example C19_ex : In "rfc6402" (ok_modules (session ["rfc6402"])) /\
  ok_get (session ["rfc6402"]) smimeMap (KeyOid [1; 3; 6; 1; 5; 5; 7; 7; 1]%N) = true.
Proof. vm_compute. auto 20. Qed.

(** C20 *)
Theorem C20_loaded_is_dependency_closure : forall h W n, session h = OK W ->
  (loaded W n <> None <-> exists m, In m h /\ reach m n).
Proof. exact loaded_iff. Qed.
Print Assumptions C20_loaded_is_dependency_closure.

Example C20_ex : ok_modules (session ["rfc3709"]) = ["rfc3709"; "rfc6170"; "rfc5280"].
Proof. vm_compute. reflexivity. Qed.

(** C38: keys are valid OIDs (X.660), except that the two O/R address tables of
    rfc5280 are keyed by non-negative integers. *)
Theorem C38_registry_keys_are_oids : forall h W d k v, session h = OK W -> reg_get W d k = Some v ->
  key_ok d k = true.
Proof. exact registry_key. Qed.
Print Assumptions C38_registry_keys_are_oids.

Example C38_ex : key_ok certificateExtensionsMap (KeyOid [2; 5; 29; 15]%N) = true /\
  key_ok certificateExtensionsMap (KeyOid [1; 40]%N) = false /\ key_ok certificateExtensionsMap (KeyInt 3) = false.
Proof. vm_compute. repeat split. Qed.
