(** The finite facts about this repository's 130 modules on which the import
    theorems rest, decided in one computation over the table of finished modules. *)
From Coq Require Import List String ZArith NArith Bool Lia.
From Verif Require Import Py.Syntax Asn1.Types Py.Eval Py.Mono Asn1.EqbFacts Gen.All
  Load.Import Load.ImportFacts Load.Table.
Import ListNotations.
Open Scope string_scope.
Open Scope list_scope.

Definition module_names : list string := map fst all_modules.

(** A dependency order of the modules. *)
Definition load_order : list string := [
  "rfc1155"; "rfc1157"; "rfc1901"; "rfc1902"; "rfc1905"; "rfc2251"; "rfc2459"; "rfc2314";
  "rfc2315"; "rfc2437"; "rfc2511"; "rfc2560"; "rfc2631"; "rfc3280"; "rfc3281"; "rfc5280";
  "rfc5652"; "rfc2634"; "rfc3565"; "rfc8018"; "rfc5751"; "rfc2876"; "rfc5958"; "rfc7292";
  "rfc2985"; "rfc2986"; "rfc3058"; "rfc5755"; "rfc3114"; "rfc3125"; "rfc4210"; "rfc3161";
  "rfc3274"; "rfc3279"; "rfc5480"; "rfc5753"; "rfc5990"; "rfc3370"; "rfc3412"; "rfc3414";
  "rfc3447"; "rfc3537"; "rfc4055"; "rfc3560"; "rfc3657"; "rfc6170"; "rfc3709"; "rfc3739";
  "rfc3770"; "rfc3779"; "rfc3820"; "rfc3852"; "rfc4010"; "rfc4043"; "rfc4073"; "rfc4108";
  "rfc4211"; "rfc4334"; "rfc4357"; "rfc4387"; "rfc4476"; "rfc4490"; "rfc4491"; "rfc4683";
  "rfc4985"; "rfc5035"; "rfc5083"; "rfc5084"; "rfc6960"; "rfc5126"; "rfc5208"; "rfc5275";
  "rfc5636"; "rfc5639"; "rfc5649"; "rfc5697"; "rfc5752"; "rfc5913"; "rfc5914"; "rfc5915";
  "rfc5916"; "rfc5917"; "rfc5924"; "rfc5934"; "rfc5940"; "rfc6010"; "rfc6019"; "rfc6031";
  "rfc6032"; "rfc6120"; "rfc6187"; "rfc6210"; "rfc6211"; "rfc6402"; "rfc6482"; "rfc6486";
  "rfc6487"; "rfc6664"; "rfc6955"; "rfc7030"; "rfc7191"; "rfc7229"; "rfc7296"; "rfc7508";
  "rfc7585"; "rfc7633"; "rfc7773"; "rfc7894"; "rfc7906"; "rfc7914"; "rfc8017"; "rfc8103";
  "rfc8209"; "rfc8226"; "rfc8358"; "rfc8360"; "rfc8398"; "rfc8410"; "rfc8418"; "rfc8419";
  "rfc8479"; "rfc8494"; "rfc8520"; "rfc8619"; "rfc8649"; "rfc8692"; "rfc8696"; "rfc8702";
  "rfc8708"; "rfc8769"].

(** ** Registrations, read off the source text *)

(** The registry updates written in a module:  NAME = {...}  literals, and for each
    target.update(NAME), the target with NAME's literal. *)
Fixpoint literals (p : module) : list (string * list (expr * expr)) :=
  match p with
  | [] => []
  | (_, SAssign [EName x] (EDict kvs)) :: p' => (x, kvs) :: literals p'
  | _ :: p' => literals p'
  end.
Fixpoint updates (p : module) : list (expr * string) :=
  match p with
  | [] => []
  | (_, SExpr (ECall (EAttr t m) [EName x] [])) :: p' => if String.eqb m "update" then (t, x) :: updates p' else updates p'
  | _ :: p' => updates p'
  end.
(** Target expression, key expression, value expression. *)
Definition registrations (p : module) : list (expr * (expr * expr)) :=
  flat_map (fun l : string * list (expr * expr) => map (fun kv => (EName (fst l), kv)) (snd l)) (literals p)
  ++ flat_map (fun u : expr * string =>
       match lookup (literals p) (snd u) with Some kvs => map (fun kv => (fst u, kv)) kvs | None => [] end) (updates p).

(** The value of an expression in the finished namespace of a module. *)
Definition eval_with (imp : string -> option modres) (m : string) (e : expr) : r pyval :=
  match imp m with
  | Some R => ev m imp [] (mkS (m_ns R) (m_cls R) (m_log R)) e
  | None => Stuck "not loaded"
  end.

Definition registers_b (R : modres) (d : did) (k : key) (v : asn1 * option aval) : bool :=
  existsb (fun di => did_eqb (fst di) d && existsb (fun kv => key_eqb (fst kv) k && entry_eqb (snd kv) v) (snd di)) (m_log R).

(** Each registration of the text evaluates to a registry, a key and a type, and is
    among the updates the module performs. *)
Definition registration_ok (imp : string -> option modres) (m : string) (g : expr * (expr * expr)) : bool :=
  match imp m, eval_with imp m (fst g), eval_with imp m (fst (snd g)), eval_with imp m (snd (snd g)) with
  | Some R, OK (PDict d), OK kv, OK vv =>
      match as_key kv, as_item vv with
      | Some k, Some v => registers_b R d k v
      | _, _ => false
      end
  | _, _, _, _ => false
  end.



Definition registrations_ok (T : tbl) : bool :=
  forallb (fun mp : string * module =>
    match lookup T (fst mp) with
    | Some e => let imp := t_imp T (e_clos e) in forallb (registration_ok imp (fst mp)) (registrations (snd mp))
    | None => false
    end) all_modules.

(** ** All registry updates *)

Definition table_of (l : tbl) : list (string * (did * (key * (asn1 * option aval)))) :=
  flat_map (fun mr : string * entry =>
    flat_map (fun di : did * items => map (fun kv => (fst mr, (fst di, kv))) (snd di)) (m_log (e_res (snd mr)))) l.

Definition early_b (m n : string) : bool :=
  match lookup all_modules m with Some p => existsb (String.eqb n) (early_needs p) | None => false end.
Lemma early_b_sound : forall m n, early_b m n = true -> early m n.
Proof.
  intros m n H. unfold early_b in H. destruct (lookup all_modules m) as [p|] eqn:E; [|discriminate].
  exists p. split; [exact E|]. apply existsb_exists in H. destruct H as (x & A & B).
  apply String.eqb_eq in B. congruence.
Qed.

Definition same_key (d : did) (k : key) (q : did * key) : bool := did_eqb d (fst q) && key_eqb k (snd q).

(** Pairwise agreement of registrations, up to [skip] pairs and a relation [allow]. *)
Fixpoint agree (skip : list (did * key)) (allow : string -> string -> bool)
  (l : list (string * (did * (key * (asn1 * option aval))))) : bool :=
  match l with
  | [] => true
  | (m, (d, (k, v))) :: l' =>
      forallb (fun q => match q with (n, (d', (k', v'))) =>
         if did_eqb d d' then
           if key_eqb k k' then entry_eqb v v' || existsb (same_key d k) skip || allow m n else true
         else true end) l'
      && agree skip allow l'
  end.

(** The same, one registry at a time (faster). *)
Fixpoint dids (l : list (string * (did * (key * (asn1 * option aval))))) (acc : list did) : list did :=
  match l with
  | [] => acc
  | (_, (d, _)) :: l' => dids l' (if existsb (did_eqb d) acc then acc else d :: acc)
  end.
Definition agree_all skip allow l : bool :=
  forallb (fun d => agree skip allow (filter (fun q : string * (did * (key * (asn1 * option aval))) => did_eqb d (fst (snd q))) l)) (dids l []).

(** Keys for which the outcome depends on the import order. *)
Definition order_dependent : list (did * key) := [
  (("rfc5280", "algorithmIdentifierMap"), KeyOid [1; 3; 14; 3; 2; 26]%N);              (* id-sha1 *)
  (("rfc5280", "algorithmIdentifierMap"), KeyOid [1; 2; 840; 113549; 1; 1; 2]%N);      (* md2WithRSAEncryption *)
  (("rfc5280", "algorithmIdentifierMap"), KeyOid [1; 2; 840; 113549; 1; 1; 4]%N);      (* md5WithRSAEncryption *)
  (("rfc5280", "algorithmIdentifierMap"), KeyOid [1; 2; 840; 113549; 1; 1; 5]%N);      (* sha1WithRSAEncryption *)
  (("rfc5280", "certificateExtensionsMap"), KeyOid [1; 3; 6; 1; 5; 5; 7; 1; 13]%N);    (* id-pe-wlanSSID *)
  (("rfc5280", "certificateAttributesMap"), KeyOid [1; 3; 6; 1; 5; 5; 7; 10; 7]%N);    (* id-aca-wlanSSID *)
  (("rfc5280", "certificateAttributesMap"), KeyOid [1; 3; 6; 1; 5; 5; 7; 9; 2]%N);     (* id-pda-placeOfBirth *)
  (("rfc5280", "certificateAttributesMap"), KeyOid [1; 3; 6; 1; 5; 5; 7; 9; 3]%N)      (* id-pda-gender *)
].
(** Keys registered with two different types by a module and one it imports: the
    importing module always wins. *)
Definition overridden : list (did * key) := [
  (("rfc5280", "algorithmIdentifierMap"), KeyOid [1; 2; 840; 113549; 1; 1; 1]%N);      (* rsaEncryption *)
  (("rfc5280", "algorithmIdentifierMap"), KeyOid [1; 2; 840; 10045; 2; 1]%N);          (* id-ecPublicKey *)
  (("rfc5280", "certificateAttributesMap"), KeyOid [2; 5; 4; 65]%N)                    (* id-at-pseudonym *)
].

Definition either_early (m n : string) : bool := negb (String.eqb m n) && (early_b m n || early_b n m).
Lemma either_early_sym : forall m n, either_early m n = either_early n m.
Proof. intros. unfold either_early. rewrite String.eqb_sym, orb_comm. reflexivity. Qed.


(** ** Import orders that matter *)

(** For each key of [order_dependent], two modules whose order matters. *)
Definition culprits : list (string * string) := [
  ("rfc8017", "rfc3279"); ("rfc8017", "rfc3279"); ("rfc8017", "rfc3279"); ("rfc8017", "rfc3279");
  ("rfc4334", "rfc3770"); ("rfc4334", "rfc3770"); ("rfc3739", "rfc2985"); ("rfc3739", "rfc2985")].


Definition mentions (t : list (string * (did * (key * (asn1 * option aval))))) (n : string) (d : did) (k : key)
  : option (asn1 * option aval) :=
  match find (fun q => match q with (m, (d', (k', _))) => String.eqb n m && (did_eqb d d' && key_eqb k k') end) t with
  | Some (_, (_, (_, v))) => Some v
  | None => None
  end.
(** In [import a; import b], [b] is loaded second and everything loaded with it that
    registers [k] registers [v]. *)
Definition second_wins (T : tbl) (t : list (string * (did * (key * (asn1 * option aval))))) (a b : string) (d : did) (k : key)
  (v : asn1 * option aval) : bool :=
  match lookup T a, lookup T b with
  | Some ea, Some eb =>
      negb (mem b (e_clos ea)) &&
      forallb (fun q => match q with (m, (d', (k', v'))) =>
        if did_eqb d d' then if key_eqb k k' then if mem m (e_clos eb) then mem m (e_clos ea) || entry_eqb v' v else true else true else true end) t
  | _, _ => false
  end.
Definition order_matters_b (T : tbl) t (c : (did * key) * (string * string)) : bool :=
  match c with
  | ((d, k), (a, b)) =>
      match mentions t a d k, mentions t b d k with
      | Some va, Some vb => negb (entry_eqb va vb) && (second_wins T t a b d k vb && second_wins T t b a d k va)
      | _, _ => false
      end
  end.

(** ** Shape of keys *)

(** X.660: at least two arcs, first arc 0..2, second arc below 40 under 0 and 1. *)
Definition valid_oid (l : list N) : bool :=
  match l with
  | a :: b :: _ => N.leb a 2 && (N.eqb a 2 || N.ltb b 40)
  | _ => false
  end.
Definition key_ok (d : did) (k : key) : bool :=
  match k with
  | KeyOid l => valid_oid l
  | KeyInt z => Z.leb 0 z && (did_eqb d ("rfc5280", "oraddressExtensionAttributeMap")
                              || did_eqb d ("rfc5280", "_oraddressExtensionAttributeMapUpdate"))
  end.

(** rfc6402.cmcControlAttributesMap is rfc5652.cmsAttributesMap. *)
Definition binds_dict (T : tbl) (m x : string) (d : did) : bool :=
  match lookup T m with
  | Some e => match lookup (m_ns (e_res e)) x with Some (PDict d') => did_eqb d' d | _ => false end
  | None => false
  end.

(** ** The computation *)

Definition checks (T : tbl) : bool :=
  forallb (fun m => match lookup T m with Some e => Nat.ltb (e_height e) nesting | None => false end) module_names
  && (forallb (fun me : string * entry => Nat.ltb (e_height (snd me)) nesting) T
  && (registrations_ok T
  && (binds_dict T "rfc6402" "cmcControlAttributesMap" ("rfc5652", "cmsAttributesMap")
  && (binds_dict T "rfc5652" "cmsAttributesMap" ("rfc5652", "cmsAttributesMap")
  && (match lookup T "rfc6402" with Some e => mem "rfc5652" (e_clos e) | None => false end
  && let t := table_of T in
     agree_all order_dependent either_early t
     && (agree_all (order_dependent ++ overridden) (fun _ _ => false) t
     && (forallb (order_matters_b T t) (combine order_dependent culprits)
     && forallb (fun q => match q with (m, (d, (k, v))) => key_ok d k end) t))))))).

Lemma computed : match build load_order [] with Some T => checks T | None => false end = true.
Proof. vm_cast_no_check (eq_refl true). Qed.

Definition some_or {A} (d : A) (x : option A) : A := match x with Some a => a | None => d end.
Definition T : tbl := some_or [] (build load_order []).

Lemma T_checked : built T /\ checks T = true.
Proof.
  pose proof computed as K. unfold T. destruct (build load_order []) as [T0|] eqn:E; [|discriminate]. cbn [some_or].
  split; [eapply build_built; [exact E|constructor]|exact K].
Qed.
