(** The schema objects of /repo against the ASN.1 modules of the RFCs, in one computation. *)
From Coq Require Import List String ZArith NArith Bool Lia.
From Verif Require Import Py.Syntax Asn1.Types Py.Eval Gen.All Asn1.Bytes Asn1.Der Asn1.Wf
  Load.Import Load.Table Load.Computed Load.Registry Load.Session Load.Schemas Load.Checked
  Spec.X680 Spec.X690 Spec.Spelling Spec.Agree Spec.Conform Spec.Looser Spec.Accepts Spec.Complete Spec.Own Spec.Meant Spec.Catalogue Spec.Deviations Spec.Oids Spec.Associations Spec.Slots
  Asn1.Inside Asn1.Reencode Load.Helper.
Import ListNotations.
Open Scope string_scope.
Open Scope list_scope.

Opaque all_modules T nesting depth.

Section codec.
Context {Cdc : codec}.

(** An exported schema object and its definition. *)
Definition conforms (q : name2 * (asn1 * option aval)) : bool :=
  match q with
  | (n, (t, None)) =>
      match definition (fst n) (snd n) with
      | Some s =>
          if agrees true true s None [] [] t then true
          else if mem2 deviating n then
            match exempted n with
            | Some sk => agrees_but sk (negb (mem2 renamed n)) false s None [] [] t && (looser_but sk s [] t || mem2 confined_tight n)
            | None => mem2 unconfined n
            end
          else has_wire s t && (has_bounds s t || mem2 loose_types n && (looser s [] t || mem2 tight n)) && (has_names s t || mem2 renamed n)
      | None => mem2 homemade n
      end
  | _ => true
  end.
(** The DER encoding of a value cannot be decoded, or not without loss. *)
Definition unreadable_by (c : codec) (t : asn1) (b : bytes) : bool :=
  match decode (Cdc := c) t b with
  | Ok (v, []) => negb (res_eqb (encode t v) (Ok b))
  | Err => true
  | _ => false
  end.
Definition unreadable (t : asn1) (b : bytes) : bool := if unreadable_by true t b then unreadable_by false t b else false.
Lemma unreadable_any : forall (c : codec) t b, unreadable t b = true -> unreadable_by c t b = true.
Proof. intros [] t b H; unfold unreadable in H; destruct (unreadable_by true t b); try discriminate H; [reflexivity|exact H]. Qed.
(** The value is encoded otherwise than X.690 says; or the two types are so different that
    pyasn1 does not even take it for a value, and its DER encoding cannot be read; or it is
    encoded although it is not a value of the RFC's type. *)
Definition differs (s : sty) (t : asn1) (v : aval) : bool :=
  regular false s v
  && if has s v then
       match encode t v with
       | Unm => match DER s v with Some b => unreadable t b | None => false end
       | r => negb (res_eqb r (huge (DER s v)))
       end
     else match encode t v with Ok _ => true | _ => false end.
(** The value is within the bounds of one and not of the other. *)
Definition otherwise_bounded (s : sty) (t : asn1) (v : aval) : bool :=
  shaped s v && negb (Bool.eqb (allowed t v) (bounded s v)).
(** A value of the RFC's type whose DER encoding is not decoded. *)
Definition refuses (s : sty) (t : asn1) (v : aval) : bool :=
  has s v && match DER s v with Some b => match decode t b with Err => true | _ => false end | None => false end.
Definition shown (P : sty -> asn1 -> aval -> bool) (T : tbl) (e : name2 * aval) : bool :=
  let (m, x) := fst e in
  match definition m x, schema_in T m x with
  | Some s, Some (t, None) => P s t (snd e)
  | _, _ => false
  end.
(** Every definition has its schema object. *)
Definition implemented (T : tbl) (d : string * definitions) : bool :=
  forallb (fun e : string * sty => match schema_in T (fst d) (fst e) with Some (_, None) => true | _ => false end) (snd d).

(** An identifier constant and its registration. *)
Definition registered_as (R : assignments) (q : name2 * (asn1 * option aval)) : bool :=
  match q with
  | (n, (_, Some (VOid a))) =>
      match registry_with R (fst n) (snd n) with
      | Some b => Bool.eqb (list_eqb N.eqb a b) (negb (mem2 wrong_oids n))
      | None => existsb (String.eqb (snd n)) unknown_oids
      end
  | _ => true
  end.
(** The integer types of SNMP are classes. *)
Definition snmp_types : list name2 := [
  ("rfc1902", "Integer32"); ("rfc1902", "Counter32"); ("rfc1902", "Gauge32"); ("rfc1902", "Unsigned32"); ("rfc1902", "TimeTicks");
  ("rfc1902", "Counter64"); ("rfc1155", "Counter"); ("rfc1155", "Gauge"); ("rfc1155", "TimeTicks")].
Definition class_in (T : tbl) (n : name2) : bool :=
  match lookup T (fst n) with
  | Some e => match lookup (m_ns (e_res e)) (snd n) with Some (PClass _) => true | _ => false end
  | None => false
  end.

(** A registered type and the RFC's. *)
Definition fits (T : tbl) (m : string) (c : content) (t : asn1) : bool :=
  match c with
  | Named x => match definition m x, schema_in T m x with Some _, Some (t', None) => asn1_eqb t t' | _, _ => false end
  | Inline s => agrees true true s None [] [] t
  | Absent => false
  end.
Definition fits_but (T : tbl) (a : association) (t : asn1) : bool :=
  if fits T (as_module a) (as_type a) t then true
  else if among strays a then true
  else among wide a && match sty_of (as_module a) (as_type a) with Some s => has_wire s t && looser s [] t | None => false end.
Definition keyed (R : assignments) (l : list association) : list (association * option key) :=
  map (fun a => (a, key_with R (as_module a) (as_id a))) l.
Definition key_is (o : option key) (k : key) : bool := match o with Some k' => key_eqb k k' | None => false end.
(** A registration has its association; an association its registration; and the omitted
    ones none. *)
Definition associated (T : tbl) (A : list (association * option key)) (q : string * (did * (key * (asn1 * option aval)))) : bool :=
  match q with
  | (m, (d, (k, (t, _)))) =>
      if hidden d then true
      else existsb (fun a => if String.eqb (as_module (fst a)) m then
                               if did_eqb (as_registry (fst a)) d then if key_is (snd a) k then fits_but T (fst a) t else false else false
                             else false) A
  end.
Definition present (l : list (string * (did * (key * (asn1 * option aval))))) (a : association * option key) : bool :=
  existsb (fun q => match q with
                    | (m, (d, (k, (t, _)))) =>
                        if String.eqb (as_module (fst a)) m then if did_eqb (as_registry (fst a)) d then key_is (snd a) k else false else false
                    end) l.
Definition missing (l : list (string * (did * (key * (asn1 * option aval))))) (a : association * option key) : bool :=
  match snd a with
  | Some k0 => forallb (fun q => match q with (m, (d, (k, _))) => if did_eqb (as_registry (fst a)) d then negb (key_eqb k k0) else true end) l
  | None => false
  end.
(** The listed registrations do differ. *)
Definition strays_shown (P : option sty -> asn1 -> aval -> bool) (l : list (string * (did * (key * (asn1 * option aval)))))
    (A : list (association * option key)) (e : string * did * ident * aval) : bool :=
  match e with
  | (m, d, i, v) =>
      match find (fun a => String.eqb (as_module (fst a)) m && did_eqb (as_registry (fst a)) d && ident_eqb (as_id (fst a)) i) A with
      | Some (a, Some k) =>
          existsb (fun q => match q with
                            | (m', (d', (k', (t, _)))) =>
                                if String.eqb m m' then if did_eqb d d' then if key_eqb k k' then P (sty_of m (as_type a)) t v else false else false else false
                            end) l
      | _ => false
      end
  end.
Definition stray (s : option sty) (t : asn1) (v : aval) : bool :=
  match s with
  | Some s => differs s t v
  | None => match encode t v with Ok _ => true | _ => false end
  end.
Definition unbounded (s : option sty) (t : asn1) (v : aval) : bool :=
  match s with Some s => otherwise_bounded s t v | None => false end.
Definition assoc_checks (T : tbl) : bool :=
  let A := keyed (respelt registered) associations in
  let l := table_of T in
  forallb (associated T A) l
  && (forallb (present l) A
  && (forallb (missing l) (keyed (respelt registered) omitted)
  && (forallb (strays_shown stray l A) strays
  && forallb (strays_shown unbounded l A) wide))).
(** Open components. *)
Definition slots_well (q : name2 * (asn1 * option aval)) : bool := everywhere (slotted (slots ++ misplaced)) (fst (snd q)).

(** They carry what is registered for them. *)
Definition untagged_any (t : asn1) : bool := match t with TPrim KAny m => match tags m with [] => true | _ => false end | _ => false end.
Definition carrier (l : list (string * (did * (key * (asn1 * option aval))))) (t : asn1) : bool :=
  match t with
  | TSeq _ _ fs =>
      forallb (fun f => match fopen f with
                        | None => true
                        | Some (_, d) =>
                            if match fpres f with Def => false | _ => true end then
                              if untagged_any (element (ftype f)) then true
                              else forallb (fun q => match q with
                                                     | (_, (d', (k, (u, _)))) =>
                                                         if did_eqb d d' then if key_eqb k (snd subject_key) then if did_eqb d (fst subject_key) then true else carries_b (element (ftype f)) u
                                                                              else carries_b (element (ftype f)) u
                                                         else true
                                                     end) l
                            else false
                        end) fs
  | _ => true
  end.
Definition carry_checks (T : tbl) : bool :=
  let l := table_of T in
  forallb (fun q : name2 * (asn1 * option aval) => everywhere (carrier l) (fst (snd q))) (schemas_of T)
  && forallb (fun q => match q with (_, (_, (_, (u, _)))) => everywhere (carrier l) u end) l.

(** Decoded, and no value of the type. *)
Definition widens (s : sty) (t : asn1) (v : aval) : bool :=
  match encode t v with Ok b => match decode t b with Ok (w, []) => aval_eqb w v && negb (whole s w) | _ => false end | _ => false end.
(** Nothing but what the definition says is accepted: constraints of a SEQUENCE are checked;
    there are no further alternatives. *)
Definition exactly (q : name2 * (asn1 * option aval)) : bool :=
  match q with
  | (n, (t, o)) =>
      if everywhere watched t then
        match definition (fst n) (snd n) with
        | Some s =>
            if mem2 deviating n then
              match exempted n with
              | Some sk => if mem2 inexact n then true else if exact_alts s t then agrees_but sk false true s None [] [] t else false
              | None => true
              end
            else if exact_alts s t then true else if mem2 loose_types n then true else mem2 widened n
        | None => true
        end
      else false
  end.

(** The definition with the constraints of the schema object is what the schema object says. *)
Definition owned (q : name2 * (asn1 * option aval)) : bool :=
  match q with
  | (n, (t, None)) =>
      match definition (fst n) (snd n) with
      | Some s =>
          let s' := as_bound s t in
          if mem2 deviating n then
            match exempted n with
            | Some sk => if agrees_but sk false true s' None [] [] t then if looser_but sk s' [] t then Bool.eqb (exact_alts s' t) (negb (mem2 more_alternatives n)) else false else false
            | None => true
            end
          else if agrees false true s' None [] [] t then Bool.eqb (exact_alts s' t) (negb (mem2 more_alternatives n)) else false
      | None => true
      end
  | _ => true
  end.

(** The schema object spells an ASN.1 type. *)
Definition spelt (q : name2 * (asn1 * option aval)) : bool :=
  match q with
  | (n, (t, o)) =>
      let s := meant t in
      if mem2 unspelt n then true
      else if agrees true true s None [] [] t then if exact_alts s t then if defaults_whole s then true else mem2 odd_defaults n else false else false
  end.

Definition spec_checks (T : tbl) : bool :=
  (let R := respelt registered in forallb (fun q => conforms q && registered_as R q) (schemas_of T))
  && (forallb (shown differs T) deviations
  && (forallb (shown otherwise_bounded T) loose
  && (forallb (shown refuses T) (filter (fun e => mem2 tight (fst e)) loose)
  && (forallb (implemented T) catalogue
  && (forallb (class_in T) snmp_types
  && (assoc_checks T
  && (forallb slots_well (schemas_of T)
  && (forallb (slot_in T) (slots ++ misplaced)
  && (forallb (closed_in T) unopened
  && (carry_checks T
  && (forallb exactly (schemas_of T)
  && (forallb (shown widens T) widening
  && (forallb owned (schemas_of T)
  && (forallb spelt (schemas_of T)
  && helpers_ok T)))))))))))))).

Lemma spec_computed : match build load_order [] with Some T => spec_checks T | None => false end = true.
Proof. vm_cast_no_check (eq_refl true). Qed.

End codec.
