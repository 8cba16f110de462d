(** Particular types and constants: rfc2251.Filter, Filter2 and Filter3 against the filters of
    RFC 2251, the SNMP integer types against their ranges, the constants with another value
    than the registered one, and values encoded otherwise than X.690 says. *)
From Coq Require Import List String ZArith NArith Bool Lia.
From Verif Require Import Py.Syntax Asn1.Types Py.Eval Gen.All Asn1.EqbFacts Asn1.Bytes Asn1.Der Asn1.RoundTrip2 Asn1.Wf
  Load.Import Load.Table Load.Computed Load.Schemas Load.Checked Load.CheckedFacts Load.Construct
  Spec.X680 Spec.X690 Spec.Agree Spec.Conform Spec.Regular Spec.Catalogue Spec.Deviations Spec.Oids Spec.Checked Spec.Facts Spec.Rfc2251 Spec.Filters.
Import ListNotations.
Open Scope string_scope.
Open Scope list_scope.

Opaque all_modules T nesting depth.

Section codec.
Context {Cdc : codec}.

Lemma not_in2 : forall l m x, mem2 l (m, x) = false -> ~ In (m, x) l.
Proof.
  intros l m x H I. assert (K : mem2 l (m, x) = true); [|congruence]. unfold mem2. apply existsb_exists. exists (m, x).
  split; [exact I|]. cbn [fst snd]. rewrite !String.eqb_refl. reflexivity.
Qed.

(** The classes and the nesting they allow (rfc2251.py:186, 206, 231). *)
Definition filter_types : list (string * nat) := [("Filter3", 0%nat); ("Filter2", 1%nat); ("Filter", 2%nat)].
Definition nests_exactly (n : nat) (t : asn1) : bool :=
  match t with TChoice m alts => if tags m then nests n alts else false | _ => false end.
Lemma filters_checked : forallb (fun p => check ["rfc2251"] "rfc2251" (fst p) (fun _ => nests_exactly (snd p))) filter_types = true.
Proof. vm_cast_no_check (eq_refl true). Qed.

Section filters.
  Variables (h : list string) (W : world) (x : string) (n : nat) (t : asn1).
  Hypothesis E : session h = OK W.
  Hypothesis I : In (x, n) filter_types.
  Hypothesis HS : schema W "rfc2251" x = Some (t, None).

  Lemma filter_definition : definition "rfc2251" x = Some (Filter_upto n).
  Proof. clear E HS. repeat (destruct I as [J|J]; [inversion J; reflexivity|clear I; rename J into I]). destruct I. Qed.
  Lemma filter_exact : ~ In ("rfc2251", x) deviating /\ ~ In ("rfc2251", x) ambiguous_types.
  Proof.
    clear E HS. split; apply not_in2; repeat (destruct I as [J|J]; [inversion J; vm_compute; reflexivity|clear I; rename J into I]); destruct I.
  Qed.
  Theorem filter_encodes : forall f, (nested f <= n)%nat -> proper f = true -> encode t (filter_value n f) = huge (filter_der f).
  Proof.
    intros f D P. rewrite <- (der_upto n f D).
    apply (type_encodes_der h W "rfc2251" x E (Filter_upto n) t filter_definition HS (proj1 filter_exact)).
    - exact (has_upto n f D P).
    - exact (tame_regular _ _ _ (tame_upto n) (has_upto n f D P)).
  Qed.
  Theorem filter_too_deep : forall f b, (n < nested f)%nat -> filter_der f = Some b ->
    (forall rest r, decode t (b ++ rest) <> Ok r) /\ (forall v, conf None t v = true -> encode t v <> Ok b).
  Proof.
    intros f b D F. assert (K : forall rest r, decode t (b ++ rest) <> Ok r).
    { intros rest r. pose proof (proj1 (forallb_forall _ _) filters_checked _ I) as C. cbn [fst snd] in C.
      pose proof (check_type _ _ _ _ C h W t None E HS) as N. unfold nests_exactly in N. destruct t as [| | |m alts]; try discriminate N.
      destruct (tags m) eqn:U; [|discriminate N]. exact (too_deep_decode n m alts f b rest r U N F D). }
    split; [exact K|]. intros v C EN.
    exact (K [] _ (type_round_trip h W "rfc2251" x t None E HS (proj2 filter_exact) v b [] C EN)).
  Qed.
End filters.

(** ** SNMP integers *)

(** RFC 1155, 6: Counter, Gauge, TimeTicks; RFC 1902, 2: the rest. *)
Definition snmp_ranges : list (string * string * (Z * Z)) := [
  ("rfc1155", "Counter", (0, 4294967295)); ("rfc1155", "Gauge", (0, 4294967295)); ("rfc1155", "TimeTicks", (0, 4294967295));
  ("rfc1902", "Integer32", (-2147483648, 2147483647)); ("rfc1902", "Unsigned32", (0, 4294967295));
  ("rfc1902", "Counter32", (0, 4294967295)); ("rfc1902", "Gauge32", (0, 4294967295)); ("rfc1902", "TimeTicks", (0, 4294967295));
  ("rfc1902", "Counter64", (0, 18446744073709551615))]%Z.
Lemma range_bounds : forall m x lo hi, In (m, x, (lo, hi)) snmp_ranges -> exists s, definition m x = Some s /\
  (forall z, shaped s (VInt z) = true /\ bounded s (VInt z) = Z.leb lo z && Z.leb z hi) /\
  In (m, x) snmp_types /\ mem2 deviating (m, x) = false /\ mem2 loose_types (m, x) = false.
Proof.
  intros m x lo hi I.
  repeat (destruct I as [I|I]; [inversion I; subst; eexists; split; [reflexivity|]; split; [intro z; split; [reflexivity|apply andb_true_r]|
    split; [repeat (first [left; reflexivity|right])|split; vm_compute; reflexivity]]|]). destruct I.
Qed.

Lemma snmp_constructs : forall h W m x lo hi, session h = OK W -> loaded W m <> None -> In (m, x, (lo, hi)) snmp_ranges ->
  exists t, schema W m x = Some (t, None) /\ forall z, call_class W m x [Eval.PInt z] =
    if Z.leb lo z && Z.leb z hi then OK (PInst t (Some (VInt z))) else Raise "ValueConstraintError".
Proof.
  intros h W m x lo hi E L I. destruct (range_bounds m x lo hi I) as (s & D & B & ST & DV & LO).
  destruct (type_implemented h W m x E s D L) as (t & HS). exists t. split; [exact HS|]. intro z.
  destruct (B z) as [S Q]. rewrite <- Q.
  assert (P : exists k mt, t = TPrim k mt).
  { pose proof (type_wire h W m x E s t D HS (not_in2 _ _ _ DV)) as A. clear - A S. unfold has_wire in A.
    revert A S. generalize (@None (tclass * N)) as over. generalize (@nil (tclass * N)) as acc. generalize (@nil scon) as cs.
    induction s as [p| |fs IH|fs IH|s IH|s IH|alts IH|c n e s IH|c s IH] using sty_ind2; intros cs acc over A S; cbn [agrees_but shaped] in *; try discriminate S.
    - destruct t; try discriminate A. do 2 eexists. reflexivity.
    - destruct e; exact (IH _ _ _ A S).
    - exact (IH _ _ _ A S). }
  destruct P as (k & mt & ->).
  exact (type_constructs h W m x s k mt E D HS (snmp_class h W m x E ST L) (not_in2 _ _ _ DV) (not_in2 _ _ _ LO) (Eval.PInt z) (VInt z) eq_refl S).
Qed.

(** ** Constants with another value *)

Lemma wrong_there : forallb (fun n => check [fst n] (fst n) (snd n) (fun W _ =>
  match schema W (fst n) (snd n) with Some (_, Some (VOid _)) => true | _ => false end)) wrong_oids = true.
Proof. vm_cast_no_check (eq_refl true). Qed.
Lemma wrong_oid : forall h W m x, session h = OK W -> loaded W m <> None -> In (m, x) wrong_oids ->
  exists t a b, schema W m x = Some (t, Some (VOid a)) /\ registry m x = Some b /\ a <> b.
Proof.
  intros h W m x E L I. pose proof (proj1 (forallb_forall _ _) wrong_there _ I) as C. cbn [fst snd] in C.
  destruct (check_sound _ _ _ _ C) as (W0 & t & o & E0 & HS & K). rewrite HS in K. destruct o as [[| | | | |a| | | | |]|]; try discriminate K.
  pose proof (eq_trans (schema_is h W m x E L) (eq_trans (eq_sym (schema_is [m] W0 m x E0 (schema_loaded _ _ _ _ HS))) HS)) as HS'.
  clear E0 HS C. pose proof (oid_registered h W m x t a E HS') as R. destruct (registry m x) as [b|] eqn:RG.
  - exists t, a, b. split; [exact HS'|]. split; [reflexivity|]. destruct (mem2 wrong_oids (m, x)) eqn:Q; [exact R|]. exfalso. exact (not_in2 _ _ _ Q I).
  - exfalso. clear - I RG. revert RG. repeat (destruct I as [I|I]; [inversion I; subst; vm_compute; discriminate|]). destruct I.
Qed.
Definition archive_is_ra (W : world) : bool :=
  match schema W "rfc6402" "id_kp_cmcArchive", schema W "rfc6402" "id_kp_cmcRA" with
  | Some (_, Some (VOid a)), Some (_, Some (VOid b)) => list_eqb N.eqb a b
  | _, _ => false
  end.

(** ** Differences *)

Lemma differs_so : forall s t v, differs s t v = true ->
  (has s v = true /\ encode t v <> huge (DER s v) /\ encode t v <> Unm) \/
  (has s v = true /\ exists b, DER s v = Some b /\ (decode t b = Err \/ exists w, decode t b = Ok (w, []) /\ encode t w <> Ok b)) \/
  (has s v = false /\ exists b, encode t v = Ok b).
Proof.
  intros s t v H. unfold differs in H. apply andb_true_iff in H. destruct H as [_ H].
  assert (NE : forall a b, negb (res_eqb a b) = true -> (exists x, b = Ok x) \/ b = Huge -> a <> b).
  { intros a b N B ->. destruct B as [(x & ->)| ->]; cbn in N; [rewrite (list_eqb_refl N.eqb N.eqb_refl x) in N|]; discriminate N. }
  assert (HU : (exists x, huge (DER s v) = Ok x) \/ huge (DER s v) = Huge) by (destruct (DER s v) as [x|]; [left; exists x|right]; reflexivity).
  destruct (has s v) eqn:HA.
  - destruct (encode t v) as [b| | |] eqn:EN.
    1-3: left; split; [reflexivity|split; [exact (NE _ _ H HU)|discriminate]].
    right. left. split; [reflexivity|]. destruct (DER s v) as [b|]; [|discriminate H]. exists b. split; [reflexivity|].
    apply (unreadable_any Cdc) in H. unfold unreadable_by in H. destruct (decode t b) as [[w [|]]| | |]; try discriminate H; [right|left; reflexivity].
    exists w. split; [reflexivity|]. apply NE; [exact H|left; exists b; reflexivity].
  - right. right. split; [reflexivity|]. destruct (encode t v) as [b| | |]; try discriminate H. exists b. reflexivity.
Qed.
Lemma otherwise_so : forall s t v, otherwise_bounded s t v = true -> shaped s v = true /\ allowed t v <> bounded s v.
Proof.
  intros s t v H. unfold otherwise_bounded in H. apply andb_true_iff in H. destruct H as [H N]. split; [exact H|].
  intro E. rewrite E, Bool.eqb_reflx in N. discriminate N.
Qed.

(** Values that are not [regular], and what becomes of them. *)
Definition irregular : list (string * string * (aval * bytes * bytes)) := [
  (* pyasn1/compat/integer.py, to_bytes: an octet too many for -2^(8k-1) *)
  ("rfc5280", "CertificateSerialNumber", (VInt (-128), [2; 1; 128], [2; 2; 255; 128]));
  (* X.690 11.2.2: no trailing 0 bits where bits are named *)
  ("rfc5280", "KeyUsage", (VBits [true; false], [3; 2; 7; 128], [3; 2; 6; 128]));
  (* pyasn1/codec/cer/encoder.py, TimeEncoderMixIn: every 0 of a fraction is dropped *)
  ("rfc3161", "TSTInfo", (VSeq [Some (VInt 1); Some (VOid [1; 2; 3]);
      Some (VSeq [Some (VSeq [Some (VOid [1; 2; 3]); None]); Some (VOcts [])]); Some (VInt 1);
      Some (VText (chars "20200101000000.05Z")); None; Some (VBool false); None; None; None],
    [48; 40; 2; 1; 1; 6; 2; 42; 3; 48; 8; 48; 4; 6; 2; 42; 3; 4; 0; 2; 1; 1; 24; 18] ++ chars "20200101000000.05Z",
    [48; 39; 2; 1; 1; 6; 2; 42; 3; 48; 8; 48; 4; 6; 2; 42; 3; 4; 0; 2; 1; 1; 24; 17] ++ chars "20200101000000.5Z"));
  (* pyasn1/codec/cer/encoder.py, SequenceEncoder: an OPTIONAL component whose contents are empty is dropped *)
  ("rfc5652", "OriginatorInfo", (VSeq [Some (VList []); None], [48; 2; 160; 0], [48; 0]))]%N.
Definition is_irregular (e : string * string * (aval * bytes * bytes)) : bool :=
  let '(m, x, (v, due, got)) := e in
  match definition m x with
  | Some s => has s v && negb (regular false s v) && res_eqb (huge (DER s v)) (Ok due)
      && check [m] m x (fun _ t => res_eqb (encode t v) (Ok got)) && negb (list_eqb N.eqb due got)
  | None => false
  end.
Lemma irregular_checked : forallb is_irregular irregular = true.
Proof. vm_cast_no_check (eq_refl true). Qed.
Lemma irregular_so : forall h W m x v due got, session h = OK W -> loaded W m <> None -> In (m, x, (v, due, got)) irregular ->
  exists s t, definition m x = Some s /\ schema W m x = Some (t, None) /\ has s v = true /\ regular false s v = false /\
    DER s v = Some due /\ encode t v = Ok got /\ due <> got.
Proof.
  intros h W m x v due got E L I. pose proof (proj1 (forallb_forall _ _) irregular_checked _ I) as K. cbn [is_irregular] in K.
  destruct (definition m x) as [s|] eqn:D; [|discriminate K]. rewrite !andb_true_iff, !negb_true_iff in K.
  destruct K as ((((HA & R) & X) & C) & N). destruct (type_implemented h W m x E s D L) as (t & HS).
  pose proof (check_type _ _ _ _ C h W t None E HS) as K. cbv beta in K. exists s, t. repeat split; try assumption.
  - apply res_eqb_ok in X. destruct (DER s v); cbn [huge] in X; [injection X as ->; reflexivity|discriminate X].
  - exact (res_eqb_ok _ _ K).
  - intros ->. rewrite (list_eqb_refl N.eqb N.eqb_refl got) in N. discriminate N.
Qed.

(** ** Sample values *)

(** A value of [s] that avoids the components of [sk]: the first alternative allowed, one
    element, no optional components but those of [sk] that are to be explicit. *)
Definition prim_sample (p : sprim) : aval :=
  match p with
  | PBool => VBool true
  | PInt ((_, z) :: _) | PEnum ((_, z) :: _) => VInt z
  | PInt [] | PEnum [] => VInt 1
  | PBits _ => VBits [true]
  | POcts => VOcts [1%N]
  | PNull => VNull
  | POid => VOid [1; 3; 6]%N
  | PStr SGenTime => VText newyear
  | PStr SUTCTime => VText utc_newyear
  | PStr _ => VText [49%N]
  end.
Section sample.
  Variable sk : list exempt.
  Fixpoint sample (s : sty) : aval :=
    match s with
    | APrim p => prim_sample p
    | AAny => VOcts [5; 0]%N
    | ASeq fs | ASet fs => VSeq ((fix go (fs : list sfield) : list (option aval) :=
        match fs with
        | [] => []
        | SF n p s' :: fs' =>
            match excluded sk n, p with
            | None, Optional => None
            | None, Default dv => Some dv
            | _, _ => Some (sample s')
            end :: go fs'
        end) fs)
    | ASeqOf s' | ASetOf s' => VList [sample s']
    | AChoice fs => (fix go (i : nat) (fs : list sfield) : aval :=
        match fs with
        | [] => VNull
        | SF n _ s' :: fs' => if spared sk n then go (S i) fs' else VAlt i (sample s')
        end) O fs
    | ATag _ _ _ s' | ACon _ s' => sample s'
    end.
End sample.
Definition has_format (f : sty * list exempt) : bool :=
  let (s, sk) := f in let v := sample sk s in
  has s v && spares sk s v && regular false s v && match DER s v with Some _ => true | None => false end.
Definition has_sample (e : (string * string) * list exempt) : bool :=
  match definition (fst (fst e)) (snd (fst e)) with
  | Some s => has_format (s, snd e)
  | None => false
  end.
Lemma confined_or_listed : forall n, In n deviating -> (exists sk, exempted n = Some sk) \/ In n unconfined.
Proof.
  assert (K : forallb (fun n => match exempted n with Some _ => true | None => mem2 unconfined n end) deviating = true) by (vm_compute; reflexivity).
  intros n I. pose proof (proj1 (forallb_forall _ _) K n I) as Q. cbv beta in Q.
  destruct (exempted n) as [sk|]; [left; exists sk; reflexivity|right; exact (mem2_in _ _ Q)].
Qed.

End codec.
