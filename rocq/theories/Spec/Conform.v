(** pyasn1's encoder, driven by a schema object that agrees with an ASN.1 type, produces the
    X.690 encoding of every regular value of the type. *)
From Coq Require Import List String ZArith NArith Bool Lia.
From Verif Require Import Asn1.Types Py.Eval Asn1.EqbFacts Asn1.Bytes Asn1.Der Asn1.RoundTrip Asn1.RoundTrip2
  Spec.X680 Spec.X690 Spec.Octets Spec.Spelling Spec.Agree.
Import ListNotations.
Open Scope string_scope.
Open Scope list_scope.

(** ** The nested loops, by name *)

Definition has_fields : list sfield -> list (option aval) -> bool :=
  fix go (fs : list sfield) (vs : list (option aval)) {struct fs} : bool :=
    match fs, vs with
    | [], [] => true
    | SF _ p s' :: fs', o :: vs' =>
        match o, p with
        | None, Mandatory => false
        | None, _ => true
        | Some x, _ => has s' x
        end && go fs' vs'
    | _, _ => false
    end.
Definition der_fields : list sfield -> list (option aval) -> option (list (tclass * N * list N)) :=
  fix go (fs : list sfield) (vs : list (option aval)) {struct fs} : option (list (tclass * N * list N)) :=
    match fs, vs with
    | [], [] => Some []
    | SF _ p s' :: fs', o :: vs' =>
        match o with
        | None => match p with Mandatory => None | _ => go fs' vs' end
        | Some x =>
            if match p with Default d => aval_eqb x d | _ => false end then go fs' vs'
            else match der s' None x, go fs' vs' with
                 | Some c, Some r => Some ((outer_tag s' x, c) :: r)
                 | _, _ => None
                 end
        end
    | _, _ => None
    end.
Definition is_optional (p : need) : bool := match p with Optional => true | _ => false end.
Definition regular_fields : list sfield -> list (option aval) -> bool :=
  fix go (fs : list sfield) (vs : list (option aval)) {struct fs} : bool :=
    match fs, vs with
    | SF _ p s' :: fs', o :: vs' =>
        match o with
        | Some x => negb (encoded p o) || regular match p with Optional => true | _ => false end s' x
        | None => true
        end && go fs' vs'
    | _, _ => true
    end.
Definition some_field : list sfield -> list (option aval) -> bool :=
  fix some (fs : list sfield) (vs : list (option aval)) {struct fs} : bool :=
    match fs, vs with
    | SF _ p _ :: fs', o :: vs' => encoded p o || some fs' vs'
    | _, _ => false
    end.
Definition agree_fields (sk : list exempt) (nm bd : bool) : list sfield -> list field -> bool :=
  fix go (fs : list sfield) (gs : list field) {struct fs} : bool :=
    match fs, gs with
    | [], [] => true
    | SF n p s' :: fs', Fld n' q t' d _ :: gs' =>
        (negb nm || same_name n n') && need_ok sk n p q d && (if spared sk n then true else agrees_but sk nm bd s' None [] [] t') && go fs' gs'
    | _, _ => false
    end.
Definition agree_alts (sk : list exempt) (nm bd : bool) : list sfield -> list field -> bool :=
  fix go (fs : list sfield) (gs : list field) {struct fs} : bool :=
    match fs, gs with
    | [], [] => true
    | [], _ => negb nm || forallb (fun g => is_added (fname g)) gs
    | SF n p s' :: fs', Fld n' _ t' _ _ :: gs' =>
        (negb nm || same_name n n') && (if spared sk n then true else agrees_but sk nm bd s' None [] [] t') && go fs' gs'
    | _, _ => false
    end.

Definition spare_fields (sk : list exempt) : list sfield -> list (option aval) -> bool :=
  fix go (fs : list sfield) (vs : list (option aval)) {struct fs} : bool :=
    match fs, vs with
    | SF n p s' :: fs', o :: vs' => slot_spares sk (spares sk s') n p s' o && go fs' vs'
    | _, _ => true
    end.

Definition alt_of {A} (d : A) (f : sty -> A) (fs : list sfield) (i : nat) : A :=
  match nth_error fs i with Some g => f (sf_type g) | None => d end.
Lemma has_choice : forall alts i x, has (AChoice alts) (VAlt i x) = alt_of false (fun s => has s x) alts i.
Proof.
  intros alts i x. cbn [has]. revert i. induction alts as [|[n p s] alts IH]; intros [|i]; try reflexivity. exact (IH i).
Qed.
Lemma regular_choice : forall ine alts i x, regular ine (AChoice alts) (VAlt i x) = alt_of true (fun s => regular ine s x) alts i.
Proof.
  intros ine alts i x. cbn [regular]. revert i. induction alts as [|[n p s] alts IH]; intros [|i]; try reflexivity. exact (IH i).
Qed.
Lemma spares_choice : forall sk alts i x, spares sk (AChoice alts) (VAlt i x) =
  match nth_error alts i with Some (SF n _ s) => if spared sk n then false else spares sk s x | None => true end.
Proof.
  intros sk alts i x. cbn [spares]. revert i. induction alts as [|[n p s] alts IH]; intros [|i]; try reflexivity. exact (IH i).
Qed.
Lemma spares_all : forall s v, spares [] s v = true.
Proof.
  assert (F : forall fs, Forall (fun f => forall v, spares [] (sf_type f) v = true) fs -> forall vs, spare_fields [] fs vs = true).
  { intros fs H. induction H as [|[n p s] fs P F IH]; intros [|o vs]; try reflexivity.
    cbn [spare_fields]. fold (spare_fields []). rewrite IH, andb_true_r. destruct o as [x|]; [|reflexivity]. cbn [sf_type] in P.
    cbn [slot_spares excluded spared existsb]. destruct (encoded p (Some x)); exact (P x). }
  induction s as [p| |fs IH|fs IH|s IH|s IH|alts IH|c n e s IH|c s IH] using sty_ind2; intros v; try reflexivity; try exact (IH v).
  - destruct v; try reflexivity. exact (F fs IH vs).
  - destruct v; try reflexivity. exact (F fs IH vs).
  - cbn [spares]. destruct v; try reflexivity. apply forallb_forall. intros x _. exact (IH x).
  - cbn [spares]. destruct v; try reflexivity. apply forallb_forall. intros x _. exact (IH x).
  - destruct v as [| | | | | | | | |i x|]; try reflexivity. rewrite spares_choice. destruct (nth_error alts i) as [[n p s]|] eqn:E; [|reflexivity].
    exact (proj1 (Forall_forall _ _) IH _ (nth_error_In _ _ E) x).
Qed.
Lemma regular_less : forall s ine v, regular ine s v = true -> regular false s v = true.
Proof.
  induction s as [p| |fs IH|fs IH|s IH|s IH|alts IH|c n e s IH|c s IH] using sty_ind2; intros ine v R; try exact R.
  - cbn [regular] in *. destruct v; try reflexivity. apply andb_true_iff in R. rewrite (proj1 R). reflexivity.
  - cbn [regular] in *. destruct v; try reflexivity. apply andb_true_iff in R. rewrite (proj1 R). reflexivity.
  - cbn [regular] in *. destruct v; try reflexivity. apply andb_true_iff in R. destruct R as [R _]. rewrite andb_true_r.
    apply forallb_forall. intros x I. exact (IH ine x (proj1 (forallb_forall _ _) R x I)).
  - cbn [regular] in *. destruct v; try reflexivity. apply andb_true_iff in R. destruct R as [R _]. rewrite andb_true_r.
    apply forallb_forall. intros x I. exact (IH ine x (proj1 (forallb_forall _ _) R x I)).
  - destruct v as [| | | | | | | | |i x|]; try reflexivity. rewrite regular_choice in *. unfold alt_of in *.
    destruct (nth_error alts i) as [f|] eqn:E; [|reflexivity]. exact (proj1 (Forall_forall _ _) IH f (nth_error_In _ _ E) ine x R).
  - exact (IH ine v R).
  - exact (IH ine v R).
Qed.
Lemma der_choice : forall alts over i x, der (AChoice alts) over (VAlt i x) =
  outer (bare over) (alt_of None (fun s => der s None x) alts i).
Proof.
  intros alts over i x. cbn [der]. assert (E : (fix go (fs : list sfield) (i : nat) {struct fs} : option (list N) :=
             match fs, i with
             | SF _ _ s' :: _, O => der s' None x
             | _ :: fs', S i' => go fs' i'
             | [], _ => None
             end) alts i = alt_of None (fun s => der s None x) alts i).
  { revert i. induction alts as [|[n p s] alts IH]; intros [|i]; try reflexivity. exact (IH i). }
  rewrite E. destruct over; reflexivity.
Qed.
Lemma outer_tag_choice : forall alts i x, outer_tag (AChoice alts) (VAlt i x) = alt_of (Universal, 0%N) (fun s => outer_tag s x) alts i.
Proof.
  intros alts i x. cbn [outer_tag]. revert i. induction alts as [|[n p s] alts IH]; intros [|i]; try reflexivity. exact (IH i).
Qed.

(** ** Encodings are not empty *)

Lemma tlv_nonempty : forall c n k b x, tlv c n k b = Some x -> x <> [].
Proof.
  intros c n k b x H. unfold tlv in H. destruct (length_octets _); [|discriminate]. inversion H.
  unfold identifier. destruct (N.leb n 30); discriminate.
Qed.
Lemma emit_nonempty : forall t k o x, emit t k o = Some x -> x <> [].
Proof. intros t k [b|] x H; [|discriminate]. exact (tlv_nonempty _ _ _ _ _ H). Qed.
Lemma der_nonempty : forall s over v b, has s v = true -> der s over v = Some b -> b <> [].
Proof.
  induction s as [p| |fs IH|fs IH|s IH|s IH|alts IH|c n e s IH|c s IH] using sty_ind2; intros over v b H D.
  - cbn [der] in D. exact (emit_nonempty _ _ _ _ D).
  - cbn [has] in H. destruct v; try discriminate. destruct b0 as [|x y]; [discriminate|]. cbn [der] in D.
    destruct over; [exact (emit_nonempty _ _ _ _ D)|]. inversion D. discriminate.
  - cbn [der] in D. destruct v; try discriminate D. exact (emit_nonempty _ _ _ _ D).
  - cbn [der] in D. destruct v; try discriminate D. exact (emit_nonempty _ _ _ _ D).
  - cbn [der] in D. destruct v; try discriminate D. exact (emit_nonempty _ _ _ _ D).
  - cbn [der] in D. destruct v; try discriminate D. exact (emit_nonempty _ _ _ _ D).
  - destruct v; try discriminate H. rewrite has_choice in H. rewrite der_choice in D. unfold alt_of in *.
    destruct (nth_error alts i) as [f|] eqn:E; [|discriminate H].
    pose proof (proj1 (Forall_forall _ _) IH f (nth_error_In _ _ E)) as K. destruct over; cbn [bare outer] in D.
    + exact (emit_nonempty _ _ _ _ D).
    + exact (K None v b H D).
  - cbn [has] in H. destruct e; cbn [der] in D; [exact (emit_nonempty _ _ _ _ D)|exact (IH _ _ _ H D)].
  - cbn [has] in H. apply andb_true_iff in H. exact (IH _ _ _ (proj2 H) D).
Qed.

(** ** Sorting *)

Section sort2.
  Context {A B : Type} (R : A -> B -> Prop) (le : A -> A -> bool) (le' : B -> B -> bool).
  Hypothesis LE : forall a b a' b', R a a' -> R b b' -> le a b = le' a' b'.
  Lemma place_insert : forall x x' l l', R x x' -> Forall2 R l l' -> Forall2 R (place le x l) (insert le' x' l').
  Proof.
    intros x x' l l' H K. induction K as [|y y' l l' Y K IH]; cbn [place insert].
    - constructor; [exact H|constructor].
    - rewrite (LE _ _ _ _ H Y). destruct (le' x' y').
      + constructor; [exact H|]. constructor; assumption.
      + constructor; [exact Y|exact IH].
  Qed.
  Lemma sorted_isort : forall l l', Forall2 R l l' -> Forall2 R (sorted le l) (isort le' l').
  Proof.
    intros l l' K. induction K as [|y y' l l' Y K IH]; cbn [sorted isort]; [constructor|]. apply place_insert; assumption.
  Qed.
End sort2.
Lemma place_in : forall A (le : A -> A -> bool) x y l, In y (place le x l) <-> y = x \/ In y l.
Proof.
  intros A le x y l. induction l as [|z l IH]; cbn [place]; [cbn; intuition congruence|].
  destruct (le x z); cbn [In]; [intuition congruence|]. rewrite IH. intuition congruence.
Qed.
Lemma sorted_in : forall A (le : A -> A -> bool) y l, In y (sorted le l) <-> In y l.
Proof.
  intros A le y l. induction l as [|z l IH]; cbn [sorted]; [reflexivity|]. rewrite place_in, IH. cbn [In]. intuition congruence.
Qed.

Lemma lex_pad_nil : forall k a, lex_le (pad (List.length a + k) a) (pad (List.length a + k) []) = octs_le a [].
Proof.
  intros k a. induction a as [|x a IH].
  - cbn [List.length Nat.add]. unfold pad. cbn [app List.length]. cbn [octs_le]. induction (k - 0)%nat as [|j J]; [reflexivity|]. cbn. exact J.
  - unfold pad in *. cbn [List.length Nat.add app octs_le lex_le Nat.sub repeat] in *. rewrite Nat.sub_0_r in IH.
    rewrite IH. destruct (N.eqb_spec x 0) as [->|E]; [reflexivity|]. cbn [andb]. destruct x; [congruence|reflexivity].
Qed.
Lemma lex_nil_pad : forall k b, lex_le (pad k []) (pad k b) = true.
Proof.
  intros k b. unfold pad. cbn [app List.length]. rewrite Nat.sub_0_r. revert b.
  induction k as [|k IH]; intro b; [reflexivity|]. destruct b as [|y b]; cbn [app List.length Nat.sub repeat lex_le].
  - specialize (IH []). cbn [app List.length] in IH. rewrite Nat.sub_0_r in IH. exact IH.
  - destruct y; cbn [N.eqb]; [apply IH|reflexivity].
Qed.
Lemma pad_spec : forall a b, octets_before a b = octs_le a b.
Proof.
  unfold octets_before. induction a as [|x a IH]; intros b.
  - cbn [List.length Nat.max octs_le]. apply lex_nil_pad.
  - destruct b as [|y b].
    + rewrite <- (lex_pad_nil 0 (x :: a)). cbn [List.length]. rewrite Nat.max_0_r, Nat.add_0_r. reflexivity.
    + specialize (IH b). cbn [octs_le]. cbn [List.length]. rewrite <- Nat.succ_max_distr.
      unfold pad in *. cbn [List.length app lex_le Nat.sub]. rewrite IH.
      destruct (N.eqb_spec x y) as [->|E]; [rewrite N.ltb_irrefl; reflexivity|]. rewrite orb_false_r. reflexivity.
Qed.

Lemma tag_order : forall a b g h, tag_is a g = true -> tag_is b h = true -> tag_before a b = tags_le [g] [h].
Proof.
  intros [c n] [d k] [c' f n'] [d' f' k'] A B. destruct (tag_is_ok _ _ A) as [A1 A2]. destruct (tag_is_ok _ _ B) as [B1 B2].
  cbn in A1, A2, B1, B2. subst. unfold tag_before, tags_le. cbn [fst snd list_cmp]. unfold tag_cmp. cbn [tcls tnum].
  assert (E : N.compare (class_num c') (class_num d') = N.compare (class_bits c') (class_bits d')) by (destruct c', d'; reflexivity).
  rewrite E. destruct (N.eqb_spec (class_bits c') (class_bits d')) as [X|X].
  - rewrite X, N.compare_refl. unfold N.leb. destruct (N.compare n' k'); reflexivity.
  - unfold N.ltb. destruct (N.compare_spec (class_bits c') (class_bits d')); [contradiction|reflexivity|reflexivity].
Qed.

Lemma tags_le_app : forall base l m, tags_le (base ++ l) (base ++ m) = tags_le l m.
Proof.
  intros base l m. unfold tags_le. induction base as [|b base IH]; [reflexivity|]. cbn [app list_cmp]. 
  replace (tag_cmp b b) with Eq; [exact IH|]. destruct b as [c f n]. unfold tag_cmp. cbn [tcls tnum]. rewrite !N.compare_refl. reflexivity.
Qed.

(** ** Constraints *)

Fixpoint csat_atoms (names : list string) (c : cons) (v : aval) {struct c} :
  csat names c v = forallb (fun a => csat names a v) (atoms c).
Proof.
  destruct c as [l|l|lo hi|lo hi|l|l|l]; try (cbn [atoms forallb]; rewrite andb_true_r; reflexivity).
  - cbn [csat atoms]. induction l as [|c l IH]; [reflexivity|]. rewrite forallb_app, <- IH, <- (csat_atoms names c v). reflexivity.
  - destruct l as [|c l]; [reflexivity|]. cbn [atoms forallb]. rewrite andb_true_r. reflexivity.
Qed.
Lemma stronger_ok : forall s c v names, stronger s c = true -> sok s v = true -> csat names c v = true.
Proof.
  intros s c v names S H. destruct s as [lo hi| | | | |]; try discriminate S. destruct c; try discriminate S.
  cbn [stronger] in S. apply andb_true_iff in S. destruct S as [S1 S2]. apply Z.leb_le in S1.
  cbn [sok] in H. destruct (count_of v) as [n|] eqn:E; [|discriminate H]. apply andb_true_iff in H. destruct H as [H1 H2]. apply N.leb_le in H1.
  assert (V : vlen v = Some (Z.of_N n)).
  { destruct v; try discriminate E; cbn [count_of] in E; inversion E; cbn [vlen]; rewrite nat_N_Z; reflexivity. }
  cbn [csat]. rewrite V. apply andb_true_iff. split; [apply Z.leb_le; lia|]. unfold below in S2. unfold leb_hi.
  destruct hi0 as [k|]; [|reflexivity]. destruct hi as [h|]; [|discriminate]. apply Z.leb_le in S2. apply N.leb_le in H2. apply Z.leb_le. lia.
Qed.
Lemma weaker_ok : forall cs c vs, cons_weaker cs c = true -> forallb (fun s => sok s (VList vs)) cs = true -> csat [] c (VList vs) = true.
Proof.
  intros cs c vs W H. rewrite csat_atoms. apply forallb_forall. intros a I. pose proof (proj1 (forallb_forall _ _) W a I) as K. cbv beta in K.
  apply existsb_exists in K. destruct K as (s & J & K). exact (stronger_ok s a _ [] K (proj1 (forallb_forall _ _) H s J)).
Qed.

(** Values of the types that can be bounded. *)
Definition measured (v : aval) : bool :=
  match v with VSeq _ | VAlt _ _ | VTyped _ _ => false | _ => true end.
Lemma same_numbers_eqb : forall a b, same_numbers a b = list_eqb N.eqb a b.
Proof. induction a as [|x a IH]; intros [|y b]; cbn; rewrite ?IH; reflexivity. Qed.
Lemma is_value_ok : forall v x, match cval_of v with Some y => cval_eqb y x | None => false end = is_value v x.
Proof. intros v x. destruct v, x; cbn [cval_of cval_eqb is_value]; rewrite ?same_numbers_eqb; try reflexivity. Qed.
Lemma list_eqb_ok : forall A (f : A -> A -> bool), (forall a b, f a b = true -> a = b) -> forall l m, list_eqb f l m = true -> l = m.
Proof.
  intros A f F l. induction l as [|x l IH]; intros [|y m] S; try discriminate S; [reflexivity|]. cbn [list_eqb] in S.
  apply andb_true_iff in S. destruct S as [S1 S2]. rewrite (IH _ S2), (F _ _ S1). reflexivity.
Qed.
Lemma measured_len : forall v, measured v = true -> vlen v = match count_of v with Some n => Some (Z.of_N n) | None => None end.
Proof. intros v M. destruct v; try discriminate M; cbn [vlen count_of]; rewrite ?nat_N_Z; reflexivity. Qed.
Definition single_ok (v : aval) (l : list cval) : bool := match cval_of v with Some x => existsb (cval_eqb x) l | None => false end.
Lemma single_value : forall v l, single_ok v l = existsb (is_value v) l.
Proof.
  intros v l. unfold single_ok. transitivity (existsb (fun x => match cval_of v with Some y => cval_eqb y x | None => false end) l).
  - destruct (cval_of v); [reflexivity|]. induction l as [|x l IH]; [reflexivity|]. exact IH.
  - induction l as [|x l IH]; [reflexivity|]. cbn [existsb]. rewrite IH, is_value_ok. reflexivity.
Qed.
Lemma csat_union : forall names u us v, csat names (CUnion (u :: us)) v = existsb (fun c => csat names c v) (u :: us).
Proof.
  intros names u us v. reflexivity.
Qed.
Lemma singles_ok : forall names v us l, singles us = Some l -> existsb (fun c => csat names c v) us = single_ok v l.
Proof.
  intros names v us. induction us as [|u us IH]; intros l H; cbn [singles] in H.
  - inversion H; subst. cbn. unfold single_ok. destruct (cval_of v); reflexivity.
  - destruct u; try discriminate H. destruct (singles us) as [b|]; [|discriminate H]. inversion H; subst. cbn [existsb]. rewrite (IH _ eq_refl).
    cbn [csat]. unfold single_ok. destruct (cval_of v); [|reflexivity]. rewrite existsb_app. reflexivity.
Qed.
Lemma lengths_ok : forall names v n us l, vlen v = Some (Z.of_N n) -> map (fun n => Some (Z.of_N n)) l = lengths us ->
  existsb (fun c => csat names c v) us = existsb (N.eqb n) l.
Proof.
  intros names v n us l V. revert l. induction us as [|u us IH]; intros [|k l] H; try discriminate H; [reflexivity|].
  unfold lengths in H. cbn [map] in H. inversion H as [[H1 H2]]. cbn [existsb]. rewrite (IH l H2). f_equal.
  destruct u as [| |a [b|]| | | |]; try discriminate H1. destruct (Z.eqb_spec a b) as [->|]; [|discriminate H1]. inversion H1; subst b.
  cbn [csat]. rewrite V. unfold leb_hi. destruct (N.eqb_spec n k) as [->|E].
  - rewrite Z.leb_refl. reflexivity.
  - destruct (Z.leb_spec (Z.of_N k) (Z.of_N n)), (Z.leb_spec (Z.of_N n) (Z.of_N k)); try reflexivity. exfalso. apply E. lia.
Qed.
Lemma same_con_ok : forall s c v names, same_con s c = true -> measured v = true -> csat names c v = sok s v.
Proof.
  intros s c v names S M. destruct s as [lo hi|l|[lo|] hi|l|l|l]; destruct c as [|us|l0 h0|l0 h0|l0|l0|]; try discriminate S;
    try (destruct us as [|u us]; [discriminate S|]); cbn [same_con] in S.
  - apply andb_true_iff in S. destruct S as [A B]. apply Z.eqb_eq in A. subst l0. cbn [csat sok].
    rewrite (measured_len v M). destruct (count_of v) as [n|]; [|reflexivity]. f_equal.
    + destruct (Z.leb_spec (Z.of_N lo) (Z.of_N n)), (N.leb_spec lo n); try lia; reflexivity.
    + unfold leb_hi. destruct hi as [h|], h0 as [k|]; try discriminate B; [|reflexivity]. cbn [same_hi] in B. apply Z.eqb_eq in B. subst k.
      destruct (Z.leb_spec (Z.of_N n) (Z.of_N h)), (N.leb_spec n h); try lia; reflexivity.
  - assert (L : map (fun n => Some (Z.of_N n)) l = lengths (u :: us)).
    { apply (list_eqb_ok _ (opt_eqb Z.eqb)); [|exact S]. intros [a|] [b|] H; try discriminate H; [|reflexivity]. apply Z.eqb_eq in H. subst. reflexivity. }
    rewrite csat_union. cbn [sok]. pose proof (measured_len v M) as V. destruct (count_of v) as [n|] eqn:C.
    + exact (lengths_ok names v n (u :: us) l V L).
    + clear S. revert l L. generalize (u :: us). clear u us. intros us. induction us as [|u us IH]; intros [|k l] L; try discriminate L; [reflexivity|].
      unfold lengths in L. cbn [map] in L. inversion L as [[H1 H2]]. cbn [existsb]. rewrite (IH l H2), orb_false_r.
      destruct u as [| |a [b|]| | | |]; try discriminate H1. cbn [csat]. rewrite V. reflexivity.
  - apply andb_true_iff in S. destruct S as [A B]. apply Z.eqb_eq in A. subst l0. cbn [csat sok].
    replace (vint v) with (number_of v) by (destruct v; reflexivity). destruct (number_of v) as [z|]; [|reflexivity]. f_equal. unfold leb_hi. destruct hi as [h|], h0 as [k|]; try discriminate B; [|reflexivity]. apply Z.eqb_eq in B. subst k. reflexivity.
  - rewrite csat_union. destruct (singles (u :: us)) as [l'|] eqn:SG; [|discriminate S].
    rewrite (singles_ok names v _ _ SG), single_value. rewrite (list_eqb_ok _ _ cval_eqb_sound _ _ S). reflexivity.
  - cbn [csat sok]. rewrite (list_eqb_ok _ _ cval_eqb_sound _ _ S). apply single_value.
  - cbn [csat sok]. rewrite (list_eqb_ok _ _ (fun a b => proj1 (N.eqb_eq a b)) _ _ S). destruct v; reflexivity.
Qed.
Lemma cons_same_ok : forall cs c v names, cons_same cs c = true -> measured v = true -> csat names c v = forallb (fun s => sok s v) cs.
Proof.
  intros cs c v names S M. apply andb_true_iff in S. destruct S as [A B]. rewrite csat_atoms.
  destruct (forallb (fun s => sok s v) cs) eqn:E.
  - apply forallb_forall. intros a I. pose proof (proj1 (forallb_forall _ _) A a I) as K. cbv beta in K. apply existsb_exists in K.
    destruct K as (s & J & K). rewrite (same_con_ok s a v names K M). exact (proj1 (forallb_forall _ _) E s J).
  - apply not_true_is_false. intro T. assert (X : forallb (fun s => sok s v) cs = true); [|congruence].
    apply forallb_forall. intros s J. pose proof (proj1 (forallb_forall _ _) B s J) as K. cbv beta in K. apply existsb_exists in K.
    destruct K as (a & I & K). rewrite <- (same_con_ok s a v names K M). exact (proj1 (forallb_forall _ _) T a I).
Qed.

(** WITH COMPONENTS. *)
Definition filled (o : option (option aval)) : bool := match o with Some (Some _) => true | _ => false end.
Lemma present_index : forall n names vs i, index n names = Some i ->
  (fix present (ns : list string) (vs : list (option aval)) : bool :=
     match ns, vs with
     | m :: ns', o :: vs' => if String.eqb m n then match o with Some _ => true | None => false end else present ns' vs'
     | _, _ => false
     end) names vs = filled (nth_error vs i).
Proof.
  intros n names. induction names as [|m names IH]; intros vs i H; [discriminate H|]. cbn [index] in H.
  destruct vs as [|o vs]; [destruct i; reflexivity|]. destruct (String.eqb m n).
  - inversion H; subst. destruct o; reflexivity.
  - destruct (index n names) as [j|]; [|discriminate H]. inversion H; subst. exact (IH vs j eq_refl).
Qed.
Lemma row_ok : forall names row c vs, row_is names row c = true -> csat names c (VSeq vs) = forallb (present_at vs) row.
Proof.
  intros names row c vs H. destruct c as [| | | | | |l]; try discriminate H. cbn [row_is] in H. cbn [csat].
  revert l H. induction row as [|[i p] row IH]; intros [|[n q] l] H; try discriminate H; [reflexivity|].
  cbn [all2] in H. rewrite !andb_true_iff in H. destruct H as [[H1 H2] H3]. cbn [forallb]. rewrite <- (IH l H3). f_equal.
  cbn [fst snd] in *. apply eqb_prop in H2. subst q. destruct (index n names) as [j|] eqn:J; [|discriminate H1]. cbn [opt_eqb] in H1. apply Nat.eqb_eq in H1. subst j.
  rewrite (present_index n names vs i J). reflexivity.
Qed.
Definition is_there (o : option aval) : bool := match o with Some _ => true | None => false end.
Lemma count_rows : forall vs k rows, all2 (fun r i => match r with [(j, true)] => Nat.eqb j i | _ => false end) rows (seq k (List.length vs)) = true ->
  forall pre, List.length pre = k -> existsb (forallb (present_at (pre ++ vs))) rows = Z.leb 1 (Z.of_nat (List.length (filter is_there vs))).
Proof.
  induction vs as [|o vs IH]; intros k rows H pre P.
  - destruct rows; [reflexivity|discriminate H].
  - cbn [List.length seq] in H. destruct rows as [|[|[j [|]] [|]] rows]; try discriminate H. cbn [all2] in H. apply andb_true_iff in H. destruct H as [H1 H2].
    apply Nat.eqb_eq in H1. subst j. cbn [existsb forallb]. rewrite andb_true_r.
    specialize (IH (S k) rows H2 (pre ++ [o])). rewrite app_length, Nat.add_1_r, P, <- app_assoc in IH. cbn [app] in IH. rewrite (IH eq_refl).
    unfold present_at. cbn [fst snd]. rewrite nth_error_app2 by (rewrite P; apply le_n). rewrite P, Nat.sub_diag. cbn [nth_error filter is_there]. destruct o; [|reflexivity].
    cbn [Bool.eqb orb is_there List.length]. symmetry. apply Z.leb_le. lia.
Qed.
Lemma filter_length_le : forall A (f : A -> bool) l, (List.length (filter f l) <= List.length l)%nat.
Proof. intros A f l. induction l as [|x l IH]; [apply le_n|]. cbn [filter]. destruct (f x); cbn [List.length]; lia. Qed.
Lemma with_ok : forall names rows c vs, with_is names rows c = true -> List.length vs = List.length names ->
  csat names c (VSeq vs) = sok (WithC rows) (VSeq vs).
Proof.
  intros names rows c vs H L. rewrite csat_atoms. unfold with_is in H. cbn [sok].
  destruct (atoms c) as [|a [|? ?]]; try discriminate H; destruct a as [|us|lo hi| | | |]; try discriminate H; try (destruct us; discriminate H); try (destruct hi; discriminate H); cbn [forallb].
  - destruct us as [|u us]; [discriminate H|]. rewrite csat_union, andb_true_r. revert H. generalize (u :: us). intros l H. revert l H.
    induction rows as [|r rows IH]; intros [|x l] H; try discriminate H; [reflexivity|]. cbn [all2] in H. apply andb_true_iff in H. destruct H as [H1 H2].
    cbn [existsb]. rewrite (IH l H2), (row_ok names r x vs H1). reflexivity.
  - destruct hi as [hi|]; [|discriminate H]. rewrite !andb_true_iff in H. destruct H as [[H1 H2] H3]. apply Z.eqb_eq in H1, H2. subst lo hi.
    rewrite <- L in *. rewrite andb_true_r. cbn [csat vlen leb_hi].
    pose proof (count_rows vs 0 rows H3 [] eq_refl) as K. cbn [app] in K. rewrite K. clear K H3.
    change (filter (fun o => match o with Some _ => true | None => false end) vs) with (filter is_there vs).
    rewrite (proj2 (Z.leb_le _ (Z.of_nat (List.length vs)))) by (apply inj_le, filter_length_le). apply andb_true_r.
Qed.
Lemma seq_cons_ok : forall bd cs names c vs, seq_cons bd cs names c = true -> List.length vs = List.length names ->
  forallb (fun c => sok c (VSeq vs)) cs = true -> ctruthy c && negb (csat names c (VSeq vs)) = false.
Proof.
  intros bd cs names c vs H L K. unfold seq_cons in H. destruct (ctruthy c); [|reflexivity]. destruct cs as [|[] [|? ?]]; try discriminate H.
  rewrite (with_ok names l c vs H L). cbn [forallb] in K. apply andb_true_iff in K. rewrite (proj1 K). reflexivity.
Qed.
Lemma seq_cons_bounds : forall cs names c vs, seq_cons true cs names c = true -> List.length vs = List.length names ->
  negb (ctruthy c) || csat names c (VSeq vs) = forallb (fun c => sok c (VSeq vs)) cs.
Proof.
  intros cs names c vs H L. unfold seq_cons in H. destruct (ctruthy c).
  - destruct cs as [|[] [|? ?]]; try discriminate H. rewrite (with_ok names l c vs H L). cbn [forallb negb orb]. rewrite andb_true_r. reflexivity.
  - destruct cs; [reflexivity|discriminate H].
Qed.

(** ** Tags of a type *)

Fixpoint stags (s : sty) (over : option (tclass * N)) : list (tclass * N) :=
  match s with
  | APrim p => [pick over (Universal, universal p)]
  | AAny | AChoice _ => bare over
  | ASeq _ | ASeqOf _ => [pick over (Universal, 16%N)]
  | ASet _ | ASetOf _ => [pick over (Universal, 17%N)]
  | ATag c n true s' => stags s' None ++ [pick over (c, n)]
  | ATag c n false s' => stags s' (Some (pick over (c, n)))
  | ACon _ s' => stags s' over
  end.
Lemma out_con : forall ts gs, out_tags ts gs = true -> con_tags ts gs = true.
Proof. intros ts gs. apply all2_weaken. intros a b H. apply andb_true_iff in H. exact (proj1 H). Qed.
Lemma prim_con : forall ts gs, prim_tags ts gs = true -> con_tags ts gs = true.
Proof.
  intros [|t ts] [|g gs] H; try discriminate. cbn [prim_tags] in H. apply andb_true_iff in H. destruct H as [H K].
  apply andb_true_iff in H. pose proof (out_con _ _ K) as K'. unfold con_tags in *. cbn [all2]. rewrite (proj1 H). exact K'.
Qed.
Lemma agrees_tags : forall sk nm bd s over acc cs t, agrees_but sk nm bd s over acc cs t = true -> con_tags (stags s over ++ acc) (tags (meta_of t)) = true.
Proof.
  intros sk nm bd s. induction s as [p| |fs IH|fs IH|s IH|s IH|alts IH|c n e s IH|c s IH] using sty_ind2; intros over acc cs t H; cbn [agrees_but] in H.
  - destruct t as [k m| | |]; try discriminate H. rewrite !andb_true_iff in H. destruct H as [[[_ H] _] _]. exact (prim_con _ _ H).
  - destruct t as [k m| | |]; try discriminate H. destruct k; try discriminate H. apply andb_true_iff in H. exact (out_con _ _ (proj1 H)).
  - destruct t as [|[] m gs| |]; try discriminate H. rewrite !andb_true_iff in H. destruct H as [[[H _] _] _]. exact H.
  - destruct t as [|[] m gs| |]; try discriminate H. rewrite !andb_true_iff in H. destruct H as [[[H _] _] _]. exact H.
  - destruct t as [| |[] m [t'|]|]; try discriminate H. rewrite !andb_true_iff in H. destruct H as [[[H _] _] _]. exact H.
  - destruct t as [| |[] m [t'|]|]; try discriminate H. rewrite !andb_true_iff in H. destruct H as [[[H _] _] _]. exact H.
  - destruct t as [| | |m gs]; try discriminate H. rewrite !andb_true_iff in H. exact (proj1 (proj1 H)).
  - destruct e; cbn [stags]; [rewrite <- app_assoc|]; exact (IH _ _ _ _ H).
  - exact (IH _ _ _ _ H).
Qed.
(** The outermost tag is the tag of the encoding. *)
Lemma stags_over : forall s u, exists l, stags s (Some u) = l ++ [u].
Proof.
  induction s as [p| |fs IH|fs IH|s IH|s IH|alts IH|c n e s IH|c s IH] using sty_ind2; intro u; cbn [stags bare pick];
    try (exists []; reflexivity).
  - destruct e; [exists (stags s None); reflexivity|apply IH].
  - apply IH.
Qed.
Lemma stags_outer : forall s v l x, stags s None = l ++ [x] -> outer_tag s v = x.
Proof.
  induction s as [p| |fs IH|fs IH|s IH|s IH|alts IH|c n e s IH|c s IH] using sty_ind2; intros v l x H; cbn [stags bare pick] in H;
    try (apply (app_inj_tail [] l) in H; destruct H as [_ H]; exact H); try (destruct l; discriminate H).
  - destruct e; cbn [outer_tag].
    + apply app_inj_tail in H. exact (proj2 H).
    + destruct (stags_over s (c, n)) as [l' E]. rewrite E in H. apply app_inj_tail in H. exact (proj2 H).
  - exact (IH v l x H).
Qed.

Lemma not_typed : forall s v, has s v = true -> match v with VTyped _ _ => False | _ => True end.
Proof.
  induction s as [p| |fs IH|fs IH|s IH|s IH|alts IH|c n e s IH|c s IH] using sty_ind2; intros v H; destruct v; try exact I; cbn [has] in H; try discriminate H.
  - destruct p; discriminate H.
  - exact (IH _ H).
  - apply andb_true_iff in H. exact (IH _ (proj2 H)).
Qed.
Lemma all2_length : forall A B (f : A -> B -> bool) l m, all2 f l m = true -> List.length l = List.length m.
Proof.
  intros A B f l. induction l as [|a l IH]; intros [|b m] H; try discriminate; [reflexivity|]. cbn [all2] in H. apply andb_true_iff in H.
  cbn. f_equal. exact (IH _ (proj2 H)).
Qed.

Lemma alt_spared : forall sk f (b : sty -> bool), match f with SF n _ s => if spared sk n then false else b s end = true ->
  spared sk (sf_name f) = false /\ b (sf_type f) = true.
Proof. intros sk [n p s] b H. cbn [sf_name sf_type]. destruct (spared sk n); [discriminate H|]. split; [reflexivity|exact H]. Qed.
(** A component within a value that spares [sk]: it is not encoded and compared in presence;
    or it is encoded and compared in type. *)
Lemma slot_agrees : forall sk nm bd n p s o q t d, slot_spares sk (spares sk s) n p s o = true -> need_ok sk n p q d = true ->
  (if spared sk n then true else agrees_but sk nm bd s None [] [] t) = true ->
  (encoded p o = false -> same_need p q d = true) /\
  (forall x, o = Some x -> encoded p o = true -> agrees_but sk nm bd s None [] [] t = true /\ spares sk s x = true /\
     (same_need p q d = true \/
      (regular true s x = true /\ match q with Def => exists w, d = Some w /\ aval_eqb x w = false | _ => True end))).
Proof.
  intros sk nm bd n p s o q t d S N A. unfold slot_spares in S. unfold need_ok in N. split.
  - intro E. destruct (excluded sk n) as [l|]; [|exact N]. destruct o as [x|]; [rewrite E in S|]; discriminate S.
  - intros x -> E. rewrite E in S. destruct (spared sk n); [rewrite andb_false_r in S; discriminate S|].
    apply andb_true_iff in S. destruct S as [S1 S2]. split; [exact A|]. split; [exact S2|].
    destruct (excluded sk n) as [l|]; [|left; exact N]. right. apply andb_true_iff in S1. destruct S1 as [S1 S3]. split; [exact S3|].
    destruct q; try exact I. cbn [shows] in N. destruct d as [w|]; [|discriminate N]. exists w. split; [reflexivity|].
    apply existsb_exists in N. destruct N as (y & Y & Q). apply aval_eqb_sound in Q. subst y.
    destruct (aval_eqb x w) eqn:Z; [|reflexivity]. apply negb_true_iff in S1.
    assert (K : existsb (aval_eqb x) l = true) by (apply existsb_exists; exists w; split; [exact Y|exact Z]). congruence.
Qed.
Lemma alts_nth : forall sk nm bd fs gs, agree_alts sk nm bd fs gs = true -> forall i f, nth_error fs i = Some f -> spared sk (sf_name f) = false ->
  exists g, nth_error gs i = Some g /\ agrees_but sk nm bd (sf_type f) None [] [] (ftype g) = true.
Proof.
  intros sk nm bd fs. induction fs as [|[n p s] fs IH]; intros [|[n' q t d o] gs] H i f E SP; try discriminate H; try (destruct i; discriminate E).
  - cbn [agree_alts] in H. fold (agree_alts sk nm bd) in H. rewrite !andb_true_iff in H. destruct H as [[_ H] K].
    destruct i as [|i]; cbn [nth_error] in E |- *.
    + inversion E; subst. cbn [sf_name] in SP. rewrite SP in H. eexists. split; [reflexivity|exact H].
    + exact (IH gs K i f E SP).
Qed.

(** An untagged type other than CHOICE is an ANY. *)
Definition key_rel (base : list tag) (a : tclass * N) (k : list tag) : Prop := exists g, k = base ++ [g] /\ tag_is a g = true.
Lemma prefixed_ok : forall base gs, prefixed base gs = true -> exists g, gs = base ++ [g].
Proof.
  induction base as [|b base IH]; intros [|g gs] H; try discriminate H.
  - destruct gs; [exists g; reflexivity|discriminate H].
  - cbn [prefixed] in H. apply andb_true_iff in H. destruct H as [E H]. apply tag_sound in E. subst g.
    destruct (IH gs H) as (x & ->). exists x. reflexivity.
Qed.
Lemma all2_last : forall A B (f : A -> B -> bool) l m y, all2 f l (m ++ [y]) = true -> exists l' x, l = l' ++ [x] /\ f x y = true.
Proof.
  intros A B f l m y. revert l. induction m as [|b m IH]; intros [|a l] H; try discriminate H.
  - cbn [app all2] in H. apply andb_true_iff in H. destruct H as [H K]. destruct l; [|discriminate K]. exists [], a. split; [reflexivity|exact H].
  - cbn [app all2] in H. apply andb_true_iff in H. destruct H as [_ H]. destruct (IH l H) as (l' & x & -> & F). exists (a :: l'), x. split; [reflexivity|exact F].
Qed.
Lemma key_spec : forall sk nm bd base s t v, agrees_but sk nm bd s None [] [] t = true -> has s v = true -> spares sk s v = true -> one_tag base t = true ->
  key_rel base (outer_tag s v) (sort_key t (Some v)).
Proof.
  intros sk nm bd base s t v A H SP O.
  assert (SINGLE : forall s t v, agrees_but sk nm bd s None [] [] t = true -> has s v = true -> prefixed base (tags (meta_of t)) = true ->
    key_rel base (outer_tag s v) (own_tags v t)).
  { clear s t v A H SP O. intros s t v A H L. pose proof (agrees_tags _ _ _ _ _ _ _ _ A) as T. rewrite app_nil_r in T.
    pose proof (not_typed s v H) as NT.
    assert (OT : own_tags v t = tags (meta_of t)) by (destruct v; [..|contradiction]; reflexivity).
    rewrite OT. destruct (prefixed_ok _ _ L) as (g & G). rewrite G in T |- *. destruct (all2_last _ _ _ _ _ _ T) as (l & x & E & X).
    exists g. split; [reflexivity|]. rewrite (stags_outer s v l x E). exact X. }
  assert (GEN : forall s over acc cs m alts v, agrees_but sk nm bd s over acc cs (TChoice m alts) = true -> has s v = true -> spares sk s v = true -> tags m = [] ->
     over = None /\ acc = [] /\ (exists i x f g, v = VAlt i x /\ has (sf_type f) x = true /\ nth_error alts i = Some g
       /\ agrees_but sk nm bd (sf_type f) None [] [] (ftype g) = true /\ outer_tag s v = outer_tag (sf_type f) x)).
  { clear - nm bd. intros s. induction s as [p| |fs IH|fs IH|s IH|s IH|alts' IH|c n e s IH|c s IH] using sty_ind2; intros over acc cs m alts v A H SP T;
      cbn [agrees_but] in A; try discriminate A.
    - rewrite !andb_true_iff in A. destruct A as [[A1 _] A2]. fold (agree_alts sk nm bd) in A2. rewrite T in A1.
      destruct over; [discriminate A1|]. destruct acc; [|discriminate A1]. split; [reflexivity|]. split; [reflexivity|].
      destruct v as [| | | | | | | | |i x|]; try discriminate H. rewrite has_choice in H. unfold alt_of in H.
      rewrite spares_choice in SP. destruct (nth_error alts' i) as [f|] eqn:E; [|discriminate H].
      destruct (alt_spared _ _ _ SP) as [SP1 SP2]. destruct (alts_nth _ _ _ _ _ A2 i f E SP1) as (g & G & AG).
      exists i, x, f, g. repeat split; try assumption. rewrite outer_tag_choice. unfold alt_of. rewrite E. reflexivity.
    - cbn [has] in H. destruct e.
      + destruct (IH _ _ _ _ _ _ A H SP T) as (_ & C & _). discriminate C.
      + destruct (IH _ _ _ _ _ _ A H SP T) as (C & _). discriminate C.
    - cbn [has] in H. apply andb_true_iff in H. exact (IH _ _ _ _ _ _ A (proj2 H) SP T). }
  destruct t as [k m|b m gs|b m o|m alts]; try apply (SINGLE _ _ _ A H O).
  cbn [one_tag] in O. destruct (tags m) as [|g l] eqn:T.
  - destruct (GEN _ _ _ _ _ _ _ A H SP T) as (_ & _ & (i & x & f & g & -> & HX & E & AG & OT)).
    cbn [sort_key]. rewrite T. unfold nth_alt. rewrite E, OT.
    exact (SINGLE _ _ _ AG HX (proj1 (forallb_forall _ _) O g (nth_error_In _ _ E))).
  - rewrite <- T in O. pose proof (SINGLE _ (TChoice m alts) v A H O) as K. pose proof (not_typed s v H) as NT.
    assert (X : sort_key (TChoice m alts) (Some v) = own_tags v (TChoice m alts)).
    { cbn [sort_key]. destruct v; try reflexivity. rewrite T. cbn [own_tags meta_of]. rewrite T. reflexivity. }
    rewrite X. exact K.
Qed.

(** ** The encoder *)

Section conform.
  Variables (sk : list exempt) (nm bd : bool).

  Definition enc_ok (s : sty) : Prop := forall over acc cs t v ine opn, agrees_but sk nm bd s over acc cs t = true -> has s v = true ->
    spares sk s v = true -> forallb (fun c => sok c v) cs = true -> regular ine s v = true -> enc v opn ine t = huge (outer acc (der s over v)).

  (** Fields, with the keys related when [set]. *)
  Definition pair_rel (set : bool) (base : list tag) (a : tclass * N * list N) (b : list tag * bytes) : Prop :=
    snd a = snd b /\ (set = true -> key_rel base (fst a) (fst b)).
  Lemma fields_ok : forall set base fs, Forall (fun f => enc_ok (sf_type f)) fs -> forall gs vs, agree_fields sk nm bd fs gs = true ->
    (set = true -> forallb (fun g => one_tag base (ftype g)) gs = true) ->
    has_fields fs vs = true -> spare_fields sk fs vs = true -> regular_fields fs vs = true ->
    match der_fields fs vs with
    | Some l => exists l', enc_fields vs gs = Ok l' /\ Forall2 (pair_rel set base) l l'
    | None => enc_fields vs gs = Huge
    end.
  Proof.
    intros set base fs F. induction F as [|[n p s] fs P F IH]; intros [|[n' q t d opn] gs] [|o vs] A O H SP R; try discriminate A; try discriminate H.
    - exists []. split; [reflexivity|constructor].
    - cbn [agree_fields] in A. fold (agree_fields sk nm bd) in A. rewrite !andb_true_iff in A. destruct A as [[[_ A0] A2] A3].
      cbn [has_fields] in H. fold has_fields in H. apply andb_true_iff in H. destruct H as [H1 H2].
      cbn [spare_fields] in SP. fold (spare_fields sk) in SP. apply andb_true_iff in SP. destruct SP as [S1 S2].
      destruct (slot_agrees _ _ _ _ _ _ _ _ _ _ S1 A0 A2) as [NE YE]. clear S1 A0 A2.
      cbn [regular_fields] in R. fold regular_fields in R. apply andb_true_iff in R. destruct R as [R1 R2].
      assert (O2 : set = true -> forallb (fun g => one_tag base (ftype g)) gs = true).
      { intro S. specialize (O S). cbn [forallb] in O. apply andb_true_iff in O. exact (proj2 O). }
      specialize (IH gs vs A3 O2 H2 S2 R2). cbn [sf_type] in P.
      cbn [der_fields enc_fields]. fold der_fields. fold enc_fields.
      destruct o as [x|].
      + assert (SKIP : match p with Default dv => aval_eqb x dv | _ => false end = true ->
            match der_fields fs vs with
            | Some l => exists l', (let! r := enc_fields vs gs in
                match q, d with
                | Def, None => Err
                | Def, Some dv => if aval_eqb x dv then Ok r else let! c := enc x (is_some opn) false t in Ok ((sort_key t (Some x), c) :: r)
                | _, _ => let! c := enc x (is_some opn) (is_opt q) t in Ok ((sort_key t (Some x), c) :: r) end) = Ok l' /\ Forall2 (pair_rel set base) l l'
            | None => (let! r := enc_fields vs gs in
                match q, d with
                | Def, None => Err
                | Def, Some dv => if aval_eqb x dv then Ok r else let! c := enc x (is_some opn) false t in Ok ((sort_key t (Some x), c) :: r)
                | _, _ => let! c := enc x (is_some opn) (is_opt q) t in Ok ((sort_key t (Some x), c) :: r) end) = Huge
            end).
        { intro S. destruct p as [| |dv]; try discriminate S.
          assert (A1 : same_need (Default dv) q d = true) by (apply NE; cbn [encoded]; rewrite S; reflexivity). destruct q; try discriminate A1. destruct d as [w|]; [|discriminate A1].
          cbn [same_need] in A1. apply aval_eqb_sound in A1. subst w. destruct (der_fields fs vs) as [l|].
          - destruct IH as (l' & E & K). exists l'. rewrite E. cbn [rbind]. rewrite S. split; [reflexivity|exact K].
          - rewrite IH. reflexivity. }
        destruct (match p with Default dv => aval_eqb x dv | _ => false end) eqn:S; [exact (SKIP eq_refl)|]. clear SKIP.
        assert (EN : encoded p (Some x) = true) by (destruct p; cbn [encoded]; [reflexivity|reflexivity|rewrite S; reflexivity]).
        rewrite EN in R1. cbn [negb orb] in R1. destruct (YE x eq_refl EN) as (A2 & SX & A1).
        assert (E : enc x (is_some opn) (is_opt q) t = huge (der s None x)).
        { refine (P None [] [] t x (is_opt q) (is_some opn) A2 H1 SX eq_refl _).
          destruct A1 as [A1|[A1 _]]; [destruct p, q; try discriminate A1; exact R1|]. destruct (is_opt q); [exact A1|exact (regular_less _ _ _ A1)]. }
        assert (BODY : forall r, match q, d with
                | Def, None => Err
                | Def, Some dv => if aval_eqb x dv then Ok r else let! c := enc x (is_some opn) false t in Ok ((sort_key t (Some x), c) :: r)
                | _, _ => let! c := enc x (is_some opn) (is_opt q) t in Ok ((sort_key t (Some x), c) :: r) end =
                (let! c := huge (der s None x) in Ok ((sort_key t (Some x), c) :: r))).
        { intro r. rewrite <- E. destruct A1 as [A1|[_ A1]].
          - destruct p as [| |dv], q; try discriminate A1; cbn [is_opt]; try reflexivity.
            destruct d as [w|]; [|discriminate A1]. cbn [same_need] in A1. apply aval_eqb_sound in A1. subst w. rewrite S. reflexivity.
          - destruct q; cbn [is_opt]; try reflexivity. destruct A1 as (w & -> & A1). rewrite A1. reflexivity. }
        destruct (der_fields fs vs) as [l|].
        * destruct IH as (l' & EF & K). destruct (der s None x) as [c|].
          -- exists ((sort_key t (Some x), c) :: l'). rewrite EF. cbn [rbind]. rewrite BODY. cbn [huge rbind]. split; [reflexivity|].
             constructor; [|exact K]. split; [reflexivity|]. intro SS. cbn [fst]. specialize (O SS). cbn [forallb] in O.
             apply andb_true_iff in O. exact (key_spec sk nm bd base s t x A2 H1 SX (proj1 O)).
          -- rewrite EF. cbn [rbind]. rewrite BODY. reflexivity.
        * rewrite IH. destruct (der s None x); reflexivity.
      + assert (A1 : same_need p q d = true) by (apply NE; destruct p; reflexivity).
        destruct p as [| |dv], q; try discriminate A1; try discriminate H1.
        * destruct (der_fields fs vs) as [l|]; [destruct IH as (l' & E & K); exists l'; rewrite E; split; [reflexivity|exact K]|rewrite IH; reflexivity].
        * destruct (der_fields fs vs) as [l|]; [destruct IH as (l' & E & K); exists l'; rewrite E; split; [reflexivity|exact K]|rewrite IH; reflexivity].
  Qed.

  Lemma fields_nonempty : forall fs vs l, has_fields fs vs = true -> der_fields fs vs = Some l -> Forall (fun p => snd p <> []) l.
  Proof.
    induction fs as [|[n p s] fs IH]; intros [|o vs] l H D; try discriminate H.
    - inversion D. constructor.
    - cbn [has_fields] in H. fold has_fields in H. apply andb_true_iff in H. destruct H as [H1 H2].
      cbn [der_fields] in D. fold der_fields in D. destruct o as [x|].
      + destruct (match p with Default dv => aval_eqb x dv | _ => false end); [exact (IH _ _ H2 D)|].
        destruct (der s None x) as [c|] eqn:E; [|discriminate D]. destruct (der_fields fs vs) as [r|] eqn:F; [|discriminate D].
        inversion D. constructor; [exact (der_nonempty _ _ _ _ H1 E)|exact (IH _ _ H2 F)].
      + destruct p; [discriminate D|exact (IH _ _ H2 D)|exact (IH _ _ H2 D)].
  Qed.
  Lemma fields_some : forall fs vs l, has_fields fs vs = true -> der_fields fs vs = Some l -> some_field fs vs = true -> l <> [].
  Proof.
    induction fs as [|[n p s] fs IH]; intros [|o vs] l H D S; try discriminate H; try discriminate S.
    cbn [has_fields] in H. fold has_fields in H. apply andb_true_iff in H. destruct H as [H1 H2].
    cbn [der_fields] in D. fold der_fields in D. cbn [some_field] in S. fold some_field in S. destruct o as [x|].
    - destruct (match p with Default dv => aval_eqb x dv | _ => false end) eqn:Q.
      + destruct p; try discriminate Q. cbn [encoded] in S. rewrite Q in S. exact (IH _ _ H2 D S).
      + destruct (der s None x) as [c|] eqn:E; [|discriminate D]. destruct (der_fields fs vs) as [r|] eqn:F; [|discriminate D]. inversion D. discriminate.
    - cbn [encoded orb] in S. destruct p; [discriminate D|exact (IH _ _ H2 D S)|exact (IH _ _ H2 D S)].
  Qed.
  Lemma concat_nonempty : forall A (l : list (list A)), l <> [] -> Forall (fun c => c <> []) l -> List.concat l <> [].
  Proof. intros A [|c l] N F; [congruence|]. inversion F; subst. destruct c; [congruence|discriminate]. Qed.
  Lemma Forall2_snd : forall set base l l', Forall2 (pair_rel set base) l l' -> map snd l = map snd l'.
  Proof. intros set base l l' H. induction H as [|a b l l' R H IH]; [reflexivity|]. cbn. rewrite IH. f_equal. exact (proj1 R). Qed.

  Lemma fields_length : forall sk nm bd fs gs vs, agree_fields sk nm bd fs gs = true -> has_fields fs vs = true -> List.length vs = List.length (fnames gs).
  Proof.
    clear. intros sk nm bd fs. induction fs as [|[n p s] fs IH]; intros [|[n' q t d o] gs] [|v vs] A H; try discriminate A; try discriminate H; [reflexivity|].
    cbn [agree_fields has_fields] in *. fold (agree_fields sk nm bd) in A. fold has_fields in H. rewrite !andb_true_iff in A. apply andb_true_iff in H.
    cbn. f_equal. exact (IH gs vs (proj2 A) (proj2 H)).
  Qed.
  Lemma seq_ok : forall set fs, Forall (fun f => enc_ok (sf_type f)) fs -> enc_ok (if set : bool then ASet fs else ASeq fs).
  Proof.
    intros set fs F over acc cs t v ine opn A H SP C R.
    assert (SH : exists m gs, t = TSeq set m gs /\ con_tags (pick over (Universal, if set then 17 else 16)%N :: acc) (tags m) = true
        /\ seq_cons bd cs (fnames gs) (spec m) = true /\ (set = true -> forallb (fun g => one_tag (base_of gs) (ftype g)) gs = true) /\ agree_fields sk nm bd fs gs = true).
    { destruct set; cbn [agrees_but] in A; destruct t as [|b m gs| |]; try discriminate A; destruct b; try discriminate A;
      rewrite !andb_true_iff in A; destruct A as [[[A1 A2] A3] A4]; exists m, gs; (split; [reflexivity|]); (split; [exact A1|]);
      (split; [exact A2|]); (split; [|exact A4]); intro S; try discriminate S. exact A3. }
    destruct SH as (m & gs & -> & A1 & A2 & A3 & A4).
    assert (V : exists vs, v = VSeq vs). { destruct set; cbn [has] in H; destruct v; try discriminate H; eexists; reflexivity. }
    destruct V as (vs & ->).
    assert (H' : has_fields fs vs = true) by (destruct set; exact H).
    assert (SP' : spare_fields sk fs vs = true) by (destruct set; exact SP).
    assert (R' : regular_fields fs vs = true /\ (ine = true -> some_field fs vs = true)).
    { destruct set; cbn [regular] in R; apply andb_true_iff in R; destruct R as [R1 R2]; (split; [exact R1|]); intros ->; exact R2. }
    destruct R' as [R1 R2].
    pose proof (fields_ok set (base_of gs) fs F gs vs A4 A3 H' SP' R1) as K. set (base := base_of gs) in *. rewrite enc_seq_eq, (seq_cons_ok _ _ _ _ _ A2 (fields_length _ _ _ _ _ _ A4 H') C).
    assert (D : der (if set then ASet fs else ASeq fs) over (VSeq vs) =
      emit (pick over (Universal, if set then 17 else 16)%N) true
        match der_fields fs vs with
        | Some l => Some (List.concat (map snd (if set then sorted (fun a b => tag_before (fst a) (fst b)) l else l)))
        | None => None end) by (destruct set; reflexivity).
    rewrite D. clear D. destruct (der_fields fs vs) as [l|] eqn:DF.
    - destruct K as (l' & E & K). rewrite E. cbn [rbind].
      set (L := if set then sorted (fun a b => tag_before (fst a) (fst b)) l else l).
      assert (EQ : map snd (if set then isort key_le l' else l') = map snd L).
      { symmetry. apply (Forall2_snd set base). subst L. destruct set; [|exact K].
        refine (sorted_isort (pair_rel true base) _ _ _ _ _ K). intros a b a' b' [_ X] [_ Y]. destruct (X eq_refl) as (g & EX & GX), (Y eq_refl) as (h & EY & GY).
        unfold key_le. rewrite EX, EY, tags_le_app. exact (tag_order _ _ _ _ GX GY). }
      rewrite EQ. rewrite finish_con.
      + rewrite (con_wrap _ _ (List.concat (map snd L)) A1). reflexivity.
      + intro I. specialize (R2 I). apply concat_nonempty.
        * pose proof (fields_some _ _ _ H' DF R2) as NE. destruct l as [|p l]; [congruence|].
          assert (IL : In p L). { subst L. destruct set; [apply sorted_in|]; left; reflexivity. }
          intro Z. apply (in_map snd) in IL. rewrite Z in IL. destruct IL.
        * apply Forall_forall. intros c IC. apply in_map_iff in IC. destruct IC as (p & <- & IP).
          assert (IP' : In p l). { subst L. destruct set; [apply sorted_in in IP|]; exact IP. }
          exact (proj1 (Forall_forall _ _) (fields_nonempty _ _ _ H' DF) p IP').
    - rewrite K. cbn [rbind emit]. rewrite outer_none. reflexivity.
  Qed.

  Lemma list_ok : forall s, enc_ok s -> forall t ine opn vs, agrees_but sk nm bd s None [] [] t = true -> forallb (has s) vs = true ->
    forallb (spares sk s) vs = true -> forallb (regular ine s) vs = true ->
    enc_list opn ine t vs = match all_some (map (der s None) vs) with Some l => Ok l | None => Huge end.
  Proof.
    intros s P t ine opn vs A H SP R. unfold enc_list. induction vs as [|x vs IH]; [reflexivity|].
    cbn [forallb] in H, SP, R. apply andb_true_iff in H, SP, R. destruct H as [H1 H2], SP as [S1 S2], R as [R1 R2]. specialize (IH H2 S2 R2).
    cbn [rmap map all_some]. rewrite (P None [] [] t x ine opn A H1 S1 eq_refl R1). cbn [outer]. destruct (der s None x) as [c|]; cbn [huge rbind]; [|reflexivity].
    rewrite IH. destruct (all_some (map (der s None) vs)); reflexivity.
  Qed.
  Lemma all_some_in : forall A (l : list (option A)) r, all_some l = Some r -> forall x, In x r -> In (Some x) l.
  Proof.
    intros A l. induction l as [|[a|] l IH]; intros r H x I; try discriminate H; [inversion H; subst; destruct I|].
    cbn [all_some] in H. destruct (all_some l) as [r'|]; [|discriminate H]. inversion H; subst. destruct I as [->|I]; [left; reflexivity|right; exact (IH _ eq_refl x I)].
  Qed.

  Lemma of_ok : forall set s, enc_ok s -> enc_ok (if set : bool then ASetOf s else ASeqOf s).
  Proof.
    intros set s P over acc cs t v ine opn A H SP C R.
    assert (SH : exists m t', t = TOf set m (Some t') /\ con_tags (pick over (Universal, if set then 17 else 16)%N :: acc) (tags m) = true
        /\ cons_weaker cs (spec m) = true /\ agrees_but sk nm bd s None [] [] t' = true).
    { destruct set; cbn [agrees_but] in A; destruct t as [| |b m o|]; try discriminate A; destruct b; try discriminate A; destruct o as [t'|]; try discriminate A;
      rewrite !andb_true_iff in A; destruct A as [[[A1 A2] A3] A4]; exists m, t'; auto. }
    destruct SH as (m & t' & -> & A1 & A2 & A4).
    assert (V : exists vs, v = VList vs). { destruct set; cbn [has] in H; destruct v; try discriminate H; eexists; reflexivity. }
    destruct V as (vs & ->).
    assert (H' : forallb (has s) vs = true) by (destruct set; exact H).
    assert (SP' : forallb (spares sk s) vs = true) by (destruct set; exact SP).
    assert (R' : forallb (regular ine s) vs = true /\ (ine = true -> vs <> [])).
    { destruct set; cbn [regular] in R; apply andb_true_iff in R; destruct R as [R1 R2]; (split; [exact R1|]); intros ->; destruct vs; discriminate. }
    destruct R' as [R1 R2]. rewrite enc_of_eq, (weaker_ok _ _ _ A2 C). cbn [negb]. rewrite andb_false_r.
    rewrite (list_ok s P t' ine opn vs A4 H' SP' R1).
    assert (D : der (if set then ASetOf s else ASeqOf s) over (VList vs) =
      emit (pick over (Universal, if set then 17 else 16)%N) true
        match all_some (map (der s None) vs) with
        | Some l => Some (List.concat (if set then sorted octets_before l else l))
        | None => None end) by (destruct set; reflexivity).
    rewrite D. clear D. destruct (all_some (map (der s None) vs)) as [l|] eqn:AS; cbn [rbind]; [|cbn [emit]; rewrite outer_none; reflexivity].
    set (L := if set then sorted octets_before l else l).
    assert (EQ : (if set then isort octs_le l else l) = L).
    { subst L. destruct set; [|reflexivity].
      assert (F : Forall2 eq (sorted octets_before l) (isort octs_le l)).
      { apply sorted_isort; [intros a b a' b' -> ->; apply pad_spec|]. clear. induction l; constructor; auto. }
      clear - F. revert F. generalize (sorted octets_before l) (isort octs_le l). intros a b F.
      induction F as [|x y a b -> F IH]; [reflexivity|]. rewrite IH. reflexivity. }
    unfold bytes in *. rewrite EQ. rewrite finish_con.
    - rewrite (con_wrap _ _ (List.concat L) A1). reflexivity.
    - intro I. specialize (R2 I). apply concat_nonempty.
      + destruct vs as [|x vs]; [congruence|]. cbn [map all_some] in AS. destruct (der s None x) as [c|]; [|discriminate AS].
        destruct (all_some (map (der s None) vs)) as [r|]; [|discriminate AS]. inversion AS; subst l.
        assert (IL : In c L). { subst L. destruct set; [apply sorted_in|]; left; reflexivity. } intro Z. rewrite Z in IL. destruct IL.
      + apply Forall_forall. intros c IC. assert (IL : In c l). { subst L. destruct set; [apply sorted_in in IC|]; exact IC. }
        pose proof (all_some_in _ _ _ AS c IL) as J. apply in_map_iff in J. destruct J as (x & E & IX).
        exact (der_nonempty _ _ _ _ (proj1 (forallb_forall _ _) H' x IX) E).
  Qed.

  Theorem enc_der : forall s, enc_ok s.
  Proof.
    induction s as [p| |fs IH|fs IH|s IH|s IH|alts IH|c n e s IH|c s IH] using sty_ind2.
    - intros over acc cs t v ine opn A H SP C R. cbn [agrees_but] in A. destruct t as [k m| | |]; try discriminate A.
      rewrite !andb_true_iff in A. destruct A as [[[A1 A2] _] _]. cbn [has] in H. cbn [regular] in R. cbn [der].
      pose proof (prim_spec p k v A1 H R) as E.
      assert (PV : enc v opn ine (TPrim k m) = let! c := enc_prim k v in finish (tags m) false ine c).
      { destruct p, v; try discriminate H; reflexivity. }
      rewrite PV, E. destruct (contents p v) as [c|] eqn:CE; cbn [huge rbind].
      + rewrite finish_prim. rewrite (prim_wrap _ _ _ c A2). reflexivity.
      + cbn [emit]. rewrite outer_none. reflexivity.
    - intros over acc cs t v ine opn A H SP C R. cbn [agrees_but] in A. destruct t as [k m| | |]; try discriminate A. destruct k; try discriminate A.
      apply andb_true_iff in A. destruct A as [A _]. cbn [has] in H. destruct v as [| | |b| | | | | | |]; try discriminate H.
      cbn [enc enc_prim rbind]. rewrite finish_prim, (out_wrap _ _ b A). destruct over; reflexivity.
    - exact (seq_ok false fs IH).
    - exact (seq_ok true fs IH).
    - exact (of_ok false s IH).
    - exact (of_ok true s IH).
    - intros over acc cs t v ine opn A H SP C R. cbn [agrees_but] in A. destruct t as [| | |m gs]; try discriminate A.
      rewrite !andb_true_iff in A. destruct A as [[A1 _] A2]. fold (agree_alts sk nm bd) in A2.
      destruct v as [| | | | | | | | |i x|]; try discriminate H. rewrite has_choice in H. rewrite regular_choice in R. unfold alt_of in H, R.
      rewrite spares_choice in SP. destruct (nth_error alts i) as [f|] eqn:E; [|discriminate H].
      destruct (alt_spared _ _ _ SP) as [SP1 SP2]. destruct (alts_nth _ _ _ _ _ A2 i f E SP1) as (g & G & AG).
      pose proof (proj1 (Forall_forall _ _) IH f (nth_error_In _ _ E)) as P.
      rewrite enc_choice_eq. unfold nth_alt. rewrite G. rewrite (P None [] [] (ftype g) x ine false AG H SP2 eq_refl R). cbn [outer].
      rewrite der_choice. unfold alt_of. rewrite E. destruct (der (sf_type f) None x) as [c|] eqn:DE; cbn [huge rbind].
      + rewrite finish_con by (intros _; exact (der_nonempty _ _ _ _ H DE)). rewrite (con_wrap _ _ c A1). destruct over; reflexivity.
      + rewrite outer_none. cbn [huge]. destruct over; cbn [bare outer emit]; rewrite outer_none; reflexivity.
    - intros over acc cs t v ine opn A H SP C R. cbn [agrees_but] in A. cbn [has] in H. cbn [regular] in R. destruct e; cbn [der].
      + rewrite (IH _ _ _ _ _ _ opn A H SP C R). reflexivity.
      + exact (IH _ _ _ _ _ _ opn A H SP C R).
    - intros over acc cs t v ine opn A H SP C R. cbn [agrees_but] in A. cbn [has] in H. apply andb_true_iff in H. destruct H as [H1 H2].
      cbn [regular] in R. cbn [der]. apply (IH over acc (c :: cs) t v ine opn A H2 SP); [|exact R]. cbn [forallb]. rewrite H1. exact C.
  Qed.
End conform.

(** der.encoder.encode(v) is the DER encoding. *)
Theorem encode_is_der_but : forall sk nm bd s t v, agrees_but sk nm bd s None [] [] t = true -> has s v = true -> spares sk s v = true ->
  regular false s v = true -> encode t v = huge (DER s v).
Proof. intros sk nm bd s t v A H SP R. exact (enc_der sk nm bd s None [] [] t v false false A H SP eq_refl R). Qed.
Theorem encode_is_der : forall nm bd s t v, agrees nm bd s None [] [] t = true -> has s v = true -> regular false s v = true ->
  encode t v = huge (DER s v).
Proof. intros nm bd s t v A H R. exact (encode_is_der_but [] nm bd s t v A H (spares_all s v) R). Qed.

(** ** Bounds *)

(** Every value inside [v] satisfies the subtypeSpec of the type at its place: what the
    constructors of its parts accept. *)
Section parts.
  Variable f : asn1 -> aval -> bool.
  Fixpoint parts (fs : list field) (vs : list (option aval)) {struct fs} : bool :=
    match fs, vs with
    | [], [] => true
    | Fld _ _ t' _ _ :: fs', o :: vs' => match o with Some x => f t' x | None => true end && parts fs' vs'
    | _, _ => false
    end.
  Fixpoint part (fs : list field) (i : nat) (x : aval) {struct fs} : bool :=
    match fs, i with
    | Fld _ _ t' _ _ :: _, O => f t' x
    | _ :: fs', S i' => part fs' i' x
    | [], _ => false
    end.
End parts.
Fixpoint allowed (t : asn1) (v : aval) {struct t} : bool :=
  match t, v with
  | TPrim _ m, _ => csat [] (spec m) v
  | TSeq _ m fs, VSeq vs => (negb (ctruthy (spec m)) || csat (fnames fs) (spec m) v) && parts allowed fs vs
  | TOf _ m (Some t'), VList vs => csat [] (spec m) v && forallb (allowed t') vs
  | TChoice _ alts, VAlt i x => part allowed alts i x
  | _, _ => false
  end.

Lemma shape_measured : forall p v, prim_shape p v = true -> measured v = true.
Proof. intros p v H. destruct p, v; try discriminate H; reflexivity. Qed.
Lemma built_in_ok : forall p v, prim_shape p v = true -> forallb (fun c => sok c v) (built_in p) = true.
Proof. intros p v H. destruct p, v; try discriminate H; try reflexivity. destruct b; reflexivity. Qed.

Lemma parts_bounded : forall nm bd fs, Forall (fun f => forall t v, agrees nm bd (sf_type f) None [] [] t = true ->
    shaped (sf_type f) v = true -> allowed t v = bounded (sf_type f) v) fs ->
  forall gs vs, agree_fields [] nm bd fs gs = true -> components shaped fs vs = true -> parts allowed gs vs = components bounded fs vs.
Proof.
  induction fs as [|[n p s] fs IH]; intros F gs vs A S; destruct gs as [|[n' q t d o] gs]; try discriminate A.
  - destruct vs; [reflexivity|discriminate S].
  - inversion F as [|? ? F1 F2]; subst. cbn [agree_fields] in A. fold (agree_fields [] nm bd) in A. rewrite !andb_true_iff in A. destruct A as [[[_ _] A] AS].
    destruct vs as [|w vs]; [discriminate S|]. cbn [components] in S. apply andb_true_iff in S. destruct S as [S SS].
    cbn [parts components]. rewrite (IH F2 gs vs AS SS). f_equal. destruct w as [x|]; [exact (F1 t x A S)|reflexivity].
Qed.
Lemma part_bounded : forall nm bd fs, Forall (fun f => forall t v, agrees nm bd (sf_type f) None [] [] t = true ->
    shaped (sf_type f) v = true -> allowed t v = bounded (sf_type f) v) fs ->
  forall gs i x, agree_alts [] nm bd fs gs = true -> alternative shaped fs i x = true -> part allowed gs i x = alternative bounded fs i x.
Proof.
  induction fs as [|[n p s] fs IH]; intros F gs i x A S; destruct gs as [|[n' q t d o] gs]; try discriminate A; try (destruct i; discriminate S).
  inversion F as [|? ? F1 F2]; subst. cbn [agree_alts] in A. fold (agree_alts [] nm bd) in A. rewrite !andb_true_iff in A. destruct A as [[_ A] AS].
  destruct i as [|i]; cbn [part alternative] in *; [exact (F1 t x A S)|exact (IH F2 gs i x AS S)].
Qed.
Lemma shaped_length : forall nm bd fs gs vs, agree_fields [] nm bd fs gs = true -> components shaped fs vs = true -> List.length vs = List.length (fnames gs).
Proof.
  intros nm bd fs. induction fs as [|[n p s] fs IH]; intros [|[n' q t d o] gs] [|v vs] A H; try discriminate A; try discriminate H; [reflexivity|].
  cbn [agree_fields components] in *. fold (agree_fields [] nm bd) in A. rewrite !andb_true_iff in A. apply andb_true_iff in H.
  cbn. f_equal. exact (IH gs vs (proj2 A) (proj2 H)).
Qed.

(** A schema object agreeing in its bounds accepts exactly the values within the bounds. *)
Lemma bounds_agree : forall nm s over acc cs t v, agrees nm true s over acc cs t = true -> shaped s v = true ->
  allowed t v = forallb (fun c => sok c v) cs && bounded s v.
Proof.
  intros nm s. induction s as [p| |fs IH|fs IH|s IH|s IH|alts IH|c n e s IH|c s IH] using sty_ind2; intros over acc cs t v A H; cbn [agrees_but] in A.
  - destruct t as [k m| | |]; try discriminate A. rewrite !andb_true_iff in A. destruct A as [_ A]. cbn [allowed bounded]. rewrite andb_true_r.
    cbn [shaped] in H. cbn [negb orb] in A. rewrite (cons_same_ok _ _ v [] A (shape_measured p v H)), forallb_app, (built_in_ok p v H). reflexivity.
  - destruct t as [k m| | |]; try discriminate A. destruct k; try discriminate A. apply andb_true_iff in A. destruct A as [_ A].
    cbn [allowed bounded]. rewrite andb_true_r. apply (cons_same_ok _ _ v [] A). destruct v; try discriminate H; reflexivity.
  - destruct t as [|b m gs| |]; try discriminate A. destruct b; try discriminate A.
    rewrite !andb_true_iff in A. destruct A as [[[_ A2] _] A4]. destruct v; try discriminate H. cbn [shaped] in H.
    cbn [allowed bounded]. rewrite (seq_cons_bounds _ _ _ _ A2 (shaped_length _ _ _ _ _ A4 H)). f_equal. refine (parts_bounded nm true fs _ gs vs A4 H).
    apply Forall_forall. intros f I t v A V. exact (proj1 (Forall_forall _ _) IH f I None [] [] t v A V).
  - destruct t as [|b m gs| |]; try discriminate A. destruct b; try discriminate A.
    rewrite !andb_true_iff in A. destruct A as [[[_ A2] _] A4]. destruct v; try discriminate H. cbn [shaped] in H.
    cbn [allowed bounded]. rewrite (seq_cons_bounds _ _ _ _ A2 (shaped_length _ _ _ _ _ A4 H)). f_equal. refine (parts_bounded nm true fs _ gs vs A4 H).
    apply Forall_forall. intros f I t v A V. exact (proj1 (Forall_forall _ _) IH f I None [] [] t v A V).
  - destruct t as [| |b m o|]; try discriminate A. destruct b; try discriminate A. destruct o as [t'|]; try discriminate A.
    rewrite !andb_true_iff in A. destruct A as [[_ A] AE]. destruct v; try discriminate H. cbn [allowed bounded shaped] in *.
    rewrite (cons_same_ok _ _ (VList vs) [] A eq_refl). f_equal. induction vs as [|x vs IV]; [reflexivity|]. cbn [forallb] in *.
    apply andb_true_iff in H. destruct H as [H HS]. rewrite (IV HS), (IH None [] [] t' x AE H). reflexivity.
  - destruct t as [| |b m o|]; try discriminate A. destruct b; try discriminate A. destruct o as [t'|]; try discriminate A.
    rewrite !andb_true_iff in A. destruct A as [[_ A] AE]. destruct v; try discriminate H. cbn [allowed bounded shaped] in *.
    rewrite (cons_same_ok _ _ (VList vs) [] A eq_refl). f_equal. induction vs as [|x vs IV]; [reflexivity|]. cbn [forallb] in *.
    apply andb_true_iff in H. destruct H as [H HS]. rewrite (IV HS), (IH None [] [] t' x AE H). reflexivity.
  - destruct t as [| | |m gs]; try discriminate A. rewrite !andb_true_iff in A. destruct A as [[_ CS] A]. cbn [negb orb] in CS.
    destruct cs; [|discriminate CS].
    destruct v; try discriminate H. cbn [allowed bounded forallb andb]. refine (part_bounded nm true alts _ gs i v A H).
    apply Forall_forall. intros f I t w A' V. exact (proj1 (Forall_forall _ _) IH f I None [] [] t w A' V).
  - cbn [bounded shaped] in *. destruct e; exact (IH _ _ _ t v A H).
  - cbn [bounded shaped] in *. rewrite (IH _ _ _ t v A H). cbn [forallb].
    destruct (sok c v), (forallb (fun c => sok c v) cs), (bounded s v); reflexivity.
Qed.
Theorem bounds_are : forall nm s t v, agrees nm true s None [] [] t = true -> shaped s v = true -> allowed t v = bounded s v.
Proof. intros nm s t v A H. exact (bounds_agree nm s None [] [] t v A H). Qed.
