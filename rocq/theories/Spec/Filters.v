(** LDAP search filters (RFC 2251, 4.5.1): the recursive type, against the finite unfolding
    rfc2251.py:214-342. *)
From Coq Require Import List String ZArith NArith Bool Lia Permutation.
From Verif Require Import Py.Syntax Asn1.Types Py.Eval Asn1.Bytes Asn1.Der Asn1.Wf Asn1.RoundTrip Asn1.RoundTrip2
  Spec.X680 Spec.X690 Spec.Octets Spec.Agree Spec.Conform Spec.Regular Spec.Rfc2251.
Import ListNotations.
Open Scope string_scope.
Open Scope list_scope.

Section codec.
Context {Cdc : codec}.

(** ** The filters of the RFC *)

(** [Test i x]: the [i]-th of the alternatives equalityMatch, substrings, greaterOrEqual,
    lessOrEqual, present, approxMatch, extensibleMatch, with value [x]. *)
Inductive ldap_filter :=
| And (l : list ldap_filter)
| Or (l : list ldap_filter)
| Not (f : ldap_filter)
| Test (i : nat) (x : aval).

Section induction.
  Variable P : ldap_filter -> Prop.
  Hypotheses (HA : forall l, Forall P l -> P (And l)) (HO : forall l, Forall P l -> P (Or l))
    (HN : forall f, P f -> P (Not f)) (HT : forall i x, P (Test i x)).
  Fixpoint filter_ind2 (f : ldap_filter) : P f :=
    let fix all (l : list ldap_filter) : Forall P l :=
      match l with [] => Forall_nil P | f :: l' => Forall_cons f (filter_ind2 f) (all l') end in
    match f with
    | And l => HA l (all l)
    | Or l => HO l (all l)
    | Not f => HN f (filter_ind2 f)
    | Test i x => HT i x
    end.
End induction.

(** How deep and, or, not are nested. *)
Fixpoint nested (f : ldap_filter) : nat :=
  match f with
  | And l | Or l => S (fold_right Nat.max O (map nested l))
  | Not f => S (nested f)
  | Test _ _ => O
  end.
(** Every test is one of the RFC's. *)
Fixpoint proper (f : ldap_filter) : bool :=
  match f with
  | And l | Or l => forallb proper l
  | Not f => proper f
  | Test i x => has (AChoice test) (VAlt i x)
  end.
(** and [0] IMPLICIT SET OF Filter, or [1] IMPLICIT SET OF Filter, not [2] Filter. *)
Fixpoint filter_der (f : ldap_filter) : option (list N) :=
  let set_of n l := match all_some (map filter_der l) with
                    | Some bs => tlv Context n true (List.concat (sorted octets_before bs))
                    | None => None
                    end in
  match f with
  | And l => set_of 0%N l
  | Or l => set_of 1%N l
  | Not f => match filter_der f with Some b => tlv Context 2%N true b | None => None end
  | Test i x => DER (AChoice test) (VAlt i x)
  end.

(** The filter as a value of the unfolding with [n] levels. *)
Fixpoint filter_value (n : nat) (f : ldap_filter) : aval :=
  match n, f with
  | S m, And l => VAlt 0 (VList (map (filter_value m) l))
  | S m, Or l => VAlt 1 (VList (map (filter_value m) l))
  | S m, Not f => VAlt 2 (filter_value m f)
  | S _, Test i x => VAlt (3 + i) x
  | O, Test i x => VAlt i x
  | O, _ => VNull
  end.

(** ** Filters that are not nested too deep *)

Lemma nested_in : forall l n f, (fold_right Nat.max O (map nested l) <= n)%nat -> In f l -> (nested f <= n)%nat.
Proof.
  induction l as [|g l IH]; intros n f H I; [destruct I|]. cbn [map fold_right] in H. destruct I as [->|I]; [lia|]. apply IH; [lia|exact I].
Qed.
Lemma has_upto : forall n f, (nested f <= n)%nat -> proper f = true -> has (Filter_upto n) (filter_value n f) = true.
Proof.
  induction n as [|n IH]; intros f D P.
  - destruct f; cbn [nested] in D; try lia. exact P.
  - assert (ALL : forall l, (fold_right Nat.max O (map nested l) <= n)%nat -> forallb proper l = true ->
      forallb (has (Filter_upto n)) (map (filter_value n) l) = true).
    { intros l D' P'. apply forallb_forall. intros v I. apply in_map_iff in I. destruct I as (f' & <- & I).
      apply IH; [exact (nested_in _ _ _ D' I)|exact (proj1 (forallb_forall _ _) P' f' I)]. }
    destruct f as [l|l|f|i x]; cbn [nested proper filter_value] in *.
    + exact (ALL l ltac:(lia) P).
    + exact (ALL l ltac:(lia) P).
    + exact (IH f ltac:(lia) P).
    + exact P.
Qed.

(** Nothing in a filter is of a kind that pyasn1 encodes otherwise than X.690 says. *)
Lemma tame_upto : forall n, tame false (Filter_upto n) = true.
Proof.
  induction n as [|n IH]; [reflexivity|]. 
  change (tame false (Filter_upto (S n))) with (let t := tame false (Filter_upto n) in (t && true) && ((t && true) && (t && tame false (AChoice test)))).
  rewrite IH. reflexivity.
Qed.
Lemma der_upto : forall n f, (nested f <= n)%nat -> DER (Filter_upto n) (filter_value n f) = filter_der f.
Proof.
  induction n as [|n IH]; intros f D.
  - destruct f; cbn [nested] in D; try lia. reflexivity.
  - assert (ALL : forall l, (fold_right Nat.max O (map nested l) <= n)%nat ->
      map (der (Filter_upto n) None) (map (filter_value n) l) = map filter_der l).
    { intros l D'. rewrite map_map. apply map_ext_in. intros f' I. exact (IH f' (nested_in _ _ _ D' I)). }
    destruct f as [l|l|f|i x]; cbn [nested filter_value filter_der] in *.
    + change (emit (Context, 0%N) true match all_some (map (der (Filter_upto n) None) (map (filter_value n) l)) with
        | Some l => Some (List.concat (sorted octets_before l)) | None => None end = 
        match all_some (map filter_der l) with Some bs => tlv Context 0 true (List.concat (sorted octets_before bs)) | None => None end).
      rewrite ALL by lia. destruct (all_some (map filter_der l)); reflexivity.
    + change (emit (Context, 1%N) true match all_some (map (der (Filter_upto n) None) (map (filter_value n) l)) with
        | Some l => Some (List.concat (sorted octets_before l)) | None => None end = 
        match all_some (map filter_der l) with Some bs => tlv Context 1 true (List.concat (sorted octets_before bs)) | None => None end).
      rewrite ALL by lia. destruct (all_some (map filter_der l)); reflexivity.
    + rewrite <- (IH f) by lia. reflexivity.
    + reflexivity.
Qed.

(** ** Filters nested deeper than the type *)

Definition context_only (n : N) (ts : list tag) : bool := match ts with [g] => tag_eqb g (mkTag Context true n) | _ => false end.
(** An untagged CHOICE whose and, or, not lead [n] levels down and no further. *)
Fixpoint nests (n : nat) (alts : list field) : bool :=
  let M := tmap_union (map fmap alts) in
  if forallb (fun ts => Nat.eqb (List.length ts) 1) (keys M) then
    if dflt M then false else
    match n with
    | O => forallb (fun ts => negb (context_only 0 ts || context_only 1 ts || context_only 2 ts)) (keys M)
    | S k =>
        match alts with
        | Fld _ _ (TOf _ m0 (Some (TChoice c0 a0))) _ _ :: Fld _ _ (TOf _ m1 (Some (TChoice c1 a1))) _ _ :: Fld _ _ (TChoice m2 a2) _ _ :: _ =>
            if context_only 0 (tags m0) && context_only 1 (tags m1) && context_only 2 (tags m2) then
              match tags c0, tags c1 with
              | [], [] => if nests k a0 then if nests k a1 then nests k a2 else false else false
              | _, _ => false
              end
            else false
        | _ => false
        end
    end
  else false.

(** An item of which at most one header is read. *)
Lemma descend_two : forall fuel accept ts s r, (forall ts, accept ts = true -> List.length ts = 1%nat) -> ts <> [] -> descend fuel accept ts s <> Ok r.
Proof.
  induction fuel as [|n IH]; intros accept ts s r A N; [discriminate|]. cbn [descend]. destruct (dec_header s) as [[[g c] rest]|]; [|discriminate].
  destruct (accept (g :: ts)) eqn:E.
  - specialize (A _ E). destruct ts; [congruence|discriminate A].
  - destruct (tcons g && negb (tclass_eqb (tcls g) Universal)); [|discriminate].
    intro H. apply rbind_ok in H. destruct H as ((p & z) & H & _). revert H. apply IH; [exact A|discriminate].
Qed.
Lemma item_single : forall accept s ts tlv c rest, (forall ts, accept ts = true -> List.length ts = 1%nat) -> item accept s = Ok (ts, tlv, c, rest) ->
  exists g, ts = [g] /\ dec_header s = Some (g, c, rest) /\ accept [g] = true.
Proof.
  intros accept s ts tlv c rest A H. unfold item in H. destruct (List.length s) as [|n]; [discriminate H|]. cbn [descend] in H.
  destruct (dec_header s) as [[[g c'] rest']|]; [|discriminate H]. destruct (accept [g]) eqn:E.
  - inversion H; subst. exists g. repeat split. exact E.
  - destruct (tcons g && negb (tclass_eqb (tcls g) Universal)); [|discriminate H].
    apply rbind_ok in H. destruct H as ((p & z) & H & _). exfalso. revert H. apply descend_two; [exact A|discriminate].
Qed.

Lemma nests_parts : forall n alts, nests n alts = true -> dflt (tmap_union (map fmap alts)) = false /\
  forall ts, accepts (tmap_union (map fmap alts)) ts = true -> List.length ts = 1%nat.
Proof.
  intros n alts H. assert (K : forallb (fun ts => Nat.eqb (List.length ts) 1) (keys (tmap_union (map fmap alts))) = true /\ dflt (tmap_union (map fmap alts)) = false).
  { destruct n; cbn [nests] in H; destruct (forallb _ (keys (tmap_union (map fmap alts)))); try discriminate H;
    destruct (dflt (tmap_union (map fmap alts))); try discriminate H; split; reflexivity. }
  destruct K as [K D]. split; [exact D|]. intros ts A. apply accepts_keys in A; [|exact D]. apply mem_tags_in in A.
  destruct A as (x & I & E). apply tags_eqb_length in E. rewrite E. apply Nat.eqb_eq. exact (proj1 (forallb_forall _ _) K x I).
Qed.

(** The items of a filter have one header and nothing around it. *)
Definition headed (b : bytes) (g : tag) (c : bytes) : Prop := b <> [] /\ forall rest, dec_header (b ++ rest) = Some (g, c, rest).
Lemma tlv_headed : forall cl n k c b, tlv cl n k c = Some b -> headed b (mkTag cl k n) c.
Proof.
  intros cl n k c b H. assert (D : forall rest, dec_header (b ++ rest) = Some (mkTag cl k n, c, rest)).
  { intro rest. apply (dec_enc_header (mkTag cl false n) k). rewrite header_spec. exact H. }
  split; [|exact D]. intros ->. specialize (D []). discriminate D.
Qed.
Lemma filter_headed : forall f b, filter_der f = Some b -> exists g c, headed b g c.
Proof.
  intros [l|l|f|i x] b; cbn [filter_der]; intro H.
  - destruct (all_some (map filter_der l)) as [bs|]; [|discriminate H]. do 2 eexists. exact (tlv_headed _ _ _ _ _ H).
  - destruct (all_some (map filter_der l)) as [bs|]; [|discriminate H]. do 2 eexists. exact (tlv_headed _ _ _ _ _ H).
  - destruct (filter_der f) as [bs|]; [|discriminate H]. do 2 eexists. exact (tlv_headed _ _ _ _ _ H).
  - unfold DER in H. rewrite der_choice in H. cbn [bare outer] in H. unfold alt_of, test in H.
    assert (E : forall t k o, emit t k o = Some b -> exists g c, headed b g c).
    { intros t k [c|] E; [|discriminate E]. do 2 eexists. exact (tlv_headed _ _ _ _ _ E). }
    destruct i as [|[|[|[|[|[|[|[]]]]]]]]; cbn [nth_error] in H; try discriminate H; cbn [sf_type req implicit der] in H.
    all: try exact (E _ _ _ H).
    all: destruct x; try discriminate H; exact (E _ _ _ H).
Qed.

Lemma dec_list_stuck : forall k ch fuel r, (forall s v s', dec_one k s = Ok (v, s') -> exists g c, dec_header s = Some (g, c, s')) ->
  (forall b, In b ch -> exists g c, headed b g c) ->
  (exists b, In b ch /\ forall rest v, dec_one k (b ++ rest) <> Ok v) -> dec_list fuel k (List.concat ch) <> Ok r.
Proof.
  intros k ch. induction ch as [|b ch IH]; intros fuel r D H (x & I & B); [destruct I|].
  destruct (H b (or_introl eq_refl)) as (g & c & NE & HD).
  cbn [List.concat]. destruct b as [|b0 b']; [congruence|]. destruct fuel as [|fuel]; [discriminate|]. cbn [app dec_list].
  change (b0 :: b' ++ List.concat ch) with ((b0 :: b') ++ List.concat ch).
  destruct I as [<-|I]; intro E; apply rbind_ok in E; destruct E as ((v & s') & E1 & E2).
  - exact (B _ _ E1).
  - destruct (D _ _ _ E1) as (g' & c' & E'). rewrite HD in E'. inversion E'; subst.
    apply rbind_ok in E2. destruct E2 as (l & E2 & _). revert E2. apply IH; [exact D|intros b I'; apply H; right; exact I'|].
    exists x. split; [exact I|exact B].
Qed.
Lemma all_some_mem : forall A B (f : A -> option B) l r, all_some (map f l) = Some r -> forall x, In x l -> exists y, f x = Some y /\ In y r.
Proof.
  intros A B f. induction l as [|a l IH]; intros r H x I; [destruct I|]. cbn in H. destruct (f a) as [y|] eqn:E; [|discriminate H].
  destruct (all_some (map f l)) as [r'|] eqn:E'; [|discriminate H]. inversion H; subst. destruct I as [<-|I].
  - exists y. split; [exact E|left; reflexivity].
  - destruct (IH _ eq_refl x I) as (z & F & J). exists z. split; [exact F|right; exact J].
Qed.
Lemma deeper_in : forall l n, (n < fold_right Nat.max O (map nested l))%nat -> exists f, In f l /\ (n < nested f)%nat.
Proof.
  induction l as [|f l IH]; intros n H; cbn [map fold_right] in H; [lia|]. destruct (Nat.ltb_spec n (nested f)).
  - exists f. split; [left; reflexivity|assumption].
  - destruct (IH n) as (g & I & G); [lia|]. exists g. split; [right; exact I|exact G].
Qed.
Lemma context_only_eq : forall n ts, context_only n ts = true -> tags_eqb [mkTag Context true n] ts = true.
Proof. intros n [|g [|]] H; try discriminate H. cbn in *. rewrite tag_eqb_sym, H. reflexivity. Qed.

(** The alternative chosen for the header of a filter that is nested too deep has no value there. *)
Definition hopeless (alts : list field) (g : tag) (c : bytes) : Prop :=
  forall i k X v, choose (map (fcomp None) alts) [g] = Ok (i, k) -> c_val k [g] X c <> Ok v.
Lemma hopeless_run : forall n alts b g c rest r, nests n alts = true -> headed b g c -> hopeless alts g c -> dec_run (map (fcomp None) alts) (b ++ rest) <> Ok r.
Proof.
  intros n alts b g c rest r N (_ & HD) H E. destruct (nests_parts _ _ N) as [D A]. unfold dec_run in E. rewrite comps_map in E.
  destruct (tok _); [|discriminate E]. apply rbind_ok in E. destruct E as ((((ts & tlv) & c') & rest') & E & E1).
  destruct (item_single _ _ _ _ _ _ A E) as (g' & -> & HD' & _). rewrite HD in HD'. inversion HD'; subst.
  apply rbind_ok in E1. destruct E1 as ((i & k) & E1 & E2). apply rbind_ok in E2. destruct E2 as (v & E2 & _).
  exact (H _ _ _ _ E1 E2).
Qed.
Lemma hopeless_one : forall n m alts b g c rest r, nests n alts = true -> tags m = [] -> headed b g c -> hopeless alts g c ->
  dec_one (comp_of None (TChoice m alts)) (b ++ rest) <> Ok r.
Proof.
  intros n m alts b g c rest r N U (_ & HD) H E. destruct (nests_parts _ _ N) as [D A]. unfold dec_one, comp_of in E. cbn [c_map c_val] in E.
  rewrite tag_map_choice, U in E.
  destruct (tok _); [|discriminate E]. apply rbind_ok in E. destruct E as ((((ts & tlv) & c') & rest') & E & E1).
  destruct (item_single _ _ _ _ _ _ A E) as (g' & -> & HD' & _). rewrite HD in HD'. inversion HD'; subst.
  apply rbind_ok in E1. destruct E1 as (v & E1 & _). rewrite dec_choice_val, U in E1. cbn [tags_eqb] in E1. cbv zeta in E1.
  apply rbind_ok in E1. destruct E1 as ((i & k) & E1 & E2). apply rbind_ok in E2. destruct E2 as (w & E2 & _).
  exact (H _ _ _ _ E1 E2).
Qed.
Lemma one_header : forall n m alts s v s', nests n alts = true -> tags m = [] ->
  dec_one (comp_of None (TChoice m alts)) s = Ok (v, s') -> exists g c, dec_header s = Some (g, c, s').
Proof.
  intros n m alts s v s' N U E. destruct (nests_parts _ _ N) as [D A]. unfold dec_one, comp_of in E. cbn [c_map c_val] in E.
  rewrite tag_map_choice, U in E.
  destruct (tok _); [|discriminate E]. apply rbind_ok in E. destruct E as ((((ts & tlv) & c') & rest') & E & E1).
  destruct (item_single _ _ _ _ _ _ A E) as (g' & -> & HD' & _). apply rbind_ok in E1. destruct E1 as (w & _ & E1). inversion E1; subst.
  exists g', c'. exact HD'.
Qed.

Lemma too_deep : forall n alts f b g c, nests n alts = true -> filter_der f = Some b -> (n < nested f)%nat -> headed b g c -> hopeless alts g c.
Proof.
  induction n as [|n IH]; intros alts f b g c N F D HD.
  - (* no such alternative *)
    intros i k X v CH _. destruct (nests_parts _ _ N) as [DF A]. cbn [nests] in N. rewrite DF in N.
    destruct (forallb _ (keys (tmap_union (map fmap alts)))); [|discriminate N].
    assert (G : exists j, (j = 0 \/ j = 1 \/ j = 2)%N /\ g = mkTag Context true j).
    { destruct f as [l|l|f|i' x]; cbn [nested filter_der] in D, F; try lia.
      - destruct (all_some (map filter_der l)); [|discriminate F]. exists 0%N. split; [tauto|].
        pose proof (proj2 (tlv_headed _ _ _ _ _ F) []) as E. rewrite (proj2 HD []) in E. congruence.
      - destruct (all_some (map filter_der l)); [|discriminate F]. exists 1%N. split; [tauto|].
        pose proof (proj2 (tlv_headed _ _ _ _ _ F) []) as E. rewrite (proj2 HD []) in E. congruence.
      - destruct (filter_der f); [|discriminate F]. exists 2%N. split; [tauto|].
        pose proof (proj2 (tlv_headed _ _ _ _ _ F) []) as E. rewrite (proj2 HD []) in E. congruence. }
    destruct G as (j & J & ->).
    assert (K : forall l q, find_key q (map (fcomp None) l) [mkTag Context true j] <> None ->
      mem_tags [mkTag Context true j] (keys (tmap_union (map fmap l))) = true).
    { induction l as [|a l IHl]; intros q H; [cbn in H; congruence|]. rewrite union_keys. cbn [flat_map]. rewrite mem_tags_app. apply orb_true_iff.
      cbn [map find_key] in H. change (c_map (fcomp None a)) with (fmap a) in H. destruct (mem_tags [mkTag Context true j] (keys (fmap a))); [left; reflexivity|right].
      rewrite <- union_keys. exact (IHl _ H). }
    unfold choose in CH. destruct (find_key 0 (map (fcomp None) alts) [mkTag Context true j]) as [p|] eqn:FK.
    + specialize (K alts 0%nat). rewrite FK in K. specialize (K ltac:(discriminate)). apply mem_tags_in in K. destruct K as (x & I & E).
      pose proof (proj1 (forallb_forall _ _) N x I) as NX. apply negb_true_iff in NX. rewrite !orb_false_iff in NX. destruct NX as [[N0 N1] N2].
      destruct x as [|y [|]]; try discriminate E; [|cbn in E; rewrite andb_false_r in E; discriminate E]. cbn in E. rewrite andb_true_r, tag_eqb_sym in E.
      cbn [context_only] in N0, N1, N2. destruct J as [->|[->| ->]]; congruence.
    + assert (FD : forall l q, existsb dflt (map fmap l) = false -> find_dflt q (map (fcomp None) l) = None).
      { induction l as [|a l IHl]; intros q H; [reflexivity|]. cbn in H. apply orb_false_iff in H. cbn [map find_dflt].
        change (c_map (fcomp None a)) with (fmap a). rewrite (proj1 H). exact (IHl _ (proj2 H)). }
      rewrite (FD alts 0%nat DF) in CH. discriminate CH.
  - (* one level down *)
    assert (DF := proj1 (nests_parts _ _ N)). cbn [nests] in N. rewrite DF in N.
    destruct (forallb _ (keys (tmap_union (map fmap alts)))); [|discriminate N].
    destruct alts as [|[n0 p0 [|?|? m0 [[|?|?|c0 a0]|]|?] d0 o0] [|[n1 p1 [|?|? m1 [[|?|?|c1 a1]|]|?] d1 o1] [|[n2 p2 [|?|?|m2 a2] d2 o2] alts]]]; try discriminate N.
    destruct (context_only 0 (tags m0) && context_only 1 (tags m1) && context_only 2 (tags m2)) eqn:T; [|discriminate N].
    apply andb_true_iff in T. destruct T as [T T2]. apply andb_true_iff in T. destruct T as [T0 T1].
    destruct (tags c0) eqn:U0; [|discriminate N]. destruct (tags c1) eqn:U1; [|discriminate N].
    destruct (nests n a0) eqn:N0; [|discriminate N]. destruct (nests n a1) eqn:N1; [|discriminate N].
    assert (LIST : forall is mt ct at' l bs ts X v, nests n at' = true -> tags ct = [] -> all_some (map filter_der l) = Some bs ->
      (S n < S (fold_right Nat.max O (map nested l)))%nat ->
      dec_val None (TOf is mt (Some (TChoice ct at'))) ts X (List.concat (sorted octets_before bs)) <> Ok v).
    { intros is mt ct at' l bs ts X v NA UC AS DL E. cbn [dec_val] in E. destruct (constructed ts); [|discriminate E].
      apply rbind_ok in E. destruct E as (r & E & _). revert E. apply dec_list_stuck.
      - intros s w s' E. exact (one_header n ct at' s w s' NA UC E).
      - intros x I. apply sorted_in in I. pose proof (all_some_in _ _ _ AS x I) as J. apply in_map_iff in J. destruct J as (f' & J & _).
        exact (filter_headed f' x J).
      - destruct (deeper_in l n ltac:(lia)) as (f' & I & DP). destruct (all_some_mem _ _ _ _ _ AS f' I) as (x & FX & IX).
        exists x. split; [apply sorted_in; exact IX|]. intros rest w. destruct (filter_headed f' x FX) as (g' & c' & HX).
        exact (hopeless_one n ct at' x g' c' rest w NA UC HX (IH at' f' x g' c' NA FX DP HX)). }
    assert (KEY : forall j q ts, context_only q ts = true -> mem_tags [mkTag Context true j] [ts] = N.eqb q j).
    { intros j q [|y [|]] K; try discriminate K. cbn in K |- *. rewrite orb_false_r, andb_true_r. unfold tag_eqb in *. cbn in *.
      apply andb_true_iff in K. destruct K as [K1 K2]. apply tclass_eqb_eq in K1. apply N.eqb_eq in K2. rewrite K1, K2. cbn. apply N.eqb_sym. }
    assert (M2 : forall n2 p2 d2 o2, fmap (Fld n2 p2 (TChoice m2 a2) d2 o2) = mkT [tags m2] false true).
    { intros. unfold fmap. cbn [ftype]. rewrite tag_map_choice. destruct (tags m2); [discriminate T2|reflexivity]. }
    intros i k X v CH. unfold choose in CH. cbn [map find_key] in CH.
    change (c_map (fcomp None (Fld n0 p0 (TOf isset m0 (Some (TChoice c0 a0))) d0 o0))) with (mkT [tags m0] false true) in CH.
    change (c_map (fcomp None (Fld n1 p1 (TOf isset0 m1 (Some (TChoice c1 a1))) d1 o1))) with (mkT [tags m1] false true) in CH.
    change (c_map (fcomp None (Fld n2 p2 (TChoice m2 a2) d2 o2))) with (fmap (Fld n2 p2 (TChoice m2 a2) d2 o2)) in CH.
    rewrite M2 in CH. cbn [keys] in CH.
    destruct f as [l|l|f|i' x]; cbn [nested filter_der] in D, F; try lia.
    + destruct (all_some (map filter_der l)) as [bs|] eqn:AS; [|discriminate F].
      pose proof (proj2 (tlv_headed _ _ _ _ _ F) []) as E. rewrite (proj2 HD []) in E. inversion E; subst g c.
      rewrite (KEY _ _ _ T0) in CH. inversion CH; subst. exact (LIST _ _ _ _ _ _ _ _ _ N0 U0 AS D).
    + destruct (all_some (map filter_der l)) as [bs|] eqn:AS; [|discriminate F].
      pose proof (proj2 (tlv_headed _ _ _ _ _ F) []) as E. rewrite (proj2 HD []) in E. inversion E; subst g c.
      rewrite (KEY _ _ _ T0), (KEY _ _ _ T1) in CH. inversion CH; subst. exact (LIST _ _ _ _ _ _ _ _ _ N1 U1 AS D).
    + destruct (filter_der f) as [bs|] eqn:AS; [|discriminate F].
      pose proof (proj2 (tlv_headed _ _ _ _ _ F) []) as E. rewrite (proj2 HD []) in E. inversion E; subst g c.
      rewrite (KEY _ _ _ T0), (KEY _ _ _ T1), (KEY _ _ _ T2) in CH. inversion CH; subst.
      change (c_val (fcomp None (Fld n2 p2 (TChoice m2 a2) d2 o2))) with (dec_val None (TChoice m2 a2)). rewrite dec_choice_val.
      pose proof (KEY 2%N 2%N _ T2) as K. cbn [mem_tags existsb N.eqb Pos.eqb] in K. rewrite orb_false_r in K. cbv zeta. rewrite K.
      intro E'. apply rbind_ok in E'. destruct E' as (((j & w) & z) & E' & _).
      destruct (filter_headed f bs AS) as (g' & c' & HX). rewrite <- (app_nil_r bs) in E'.
      exact (hopeless_run n a2 bs g' c' [] _ N HX (IH a2 f bs g' c' N AS ltac:(lia) HX) E').
Qed.
Theorem too_deep_decode : forall n m alts f b rest r, tags m = [] -> nests n alts = true -> filter_der f = Some b -> (n < nested f)%nat ->
  decode (TChoice m alts) (b ++ rest) <> Ok r.
Proof.
  intros n m alts f b rest r U N F D. destruct (filter_headed f b F) as (g & c & HX).
  exact (hopeless_one n m alts b g c rest r N U HX (too_deep n alts f b g c N F D HX)).
Qed.

End codec.
