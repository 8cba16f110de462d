(** pyasn1's decoder, driven by a schema object that agrees with an ASN.1 type, reads the
    X.690 encoding of every regular value of the type back as that value. *)
From Coq Require Import List String ZArith NArith Bool Lia.
From Verif Require Import Asn1.Types Py.Eval Asn1.EqbFacts Asn1.Bytes Asn1.Charset Asn1.Der Asn1.Wf Asn1.RoundTrip Asn1.RoundTrip2
  Asn1.Inside Asn1.Open Asn1.OpenDepth Spec.X680 Spec.X690 Spec.Octets Spec.Spelling Spec.Agree Spec.Conform.
Import ListNotations.
Open Scope string_scope.
Open Scope list_scope.

Section codec.
Context {Cdc : codec}.

(** ** Values in the form a decoder gives them

    Two values of Spec/X680.v can stand for the same abstract value, and then have the same
    encoding: a component equal to its DEFAULT may be present or absent, and the elements of a
    SET OF may be in any order.  A decoder fills defaults in and leaves elements as they come.
    What ANY stands for is one encoding, with a tag that is not reserved. *)
Definition one_encoding (b : list N) : Prop :=
  exists c n k contents, (c, n) <> (Universal, 0%N) /\ tlv c n k contents = Some b.
Fixpoint normal (s : sty) (v : aval) {struct s} : Prop :=
  match s with
  | APrim _ => True
  | AAny => match v with VOcts b => one_encoding b | _ => True end
  | ASeq fs | ASet fs =>
      match v with
      | VSeq vs =>
          (fix go (fs : list sfield) (vs : list (option aval)) {struct fs} : Prop :=
             match fs, vs with
             | SF _ p s' :: fs', o :: vs' =>
                 match o with
                 | Some x => encoded p o = true -> normal s' x
                 | None => match p with Default _ => False | _ => True end
                 end /\ go fs' vs'
             | _, _ => True
             end) fs vs
      | _ => True
      end
  | ASeqOf s' => match v with VList vs => forall x, In x vs -> normal s' x | _ => True end
  | ASetOf s' =>
      match v with
      | VList vs => (forall x, In x vs -> normal s' x)
          /\ match all_some (map (der s' None) vs) with Some l => sorted octets_before l = l | None => True end
      | _ => True
      end
  | AChoice alts =>
      match v with
      | VAlt i x =>
          (fix go (fs : list sfield) (i : nat) {struct fs} : Prop :=
             match fs, i with
             | SF _ _ s' :: _, O => normal s' x
             | _ :: fs', S i' => go fs' i'
             | [], _ => True
             end) alts i
      | _ => True
      end
  | ATag _ _ _ s' | ACon _ s' => normal s' v
  end.

Definition normal_fields : list sfield -> list (option aval) -> Prop :=
  fix go (fs : list sfield) (vs : list (option aval)) {struct fs} : Prop :=
    match fs, vs with
    | SF _ p s' :: fs', o :: vs' =>
        match o with
        | Some x => encoded p o = true -> normal s' x
        | None => match p with Default _ => False | _ => True end
        end /\ go fs' vs'
    | _, _ => True
    end.
Lemma normal_choice : forall alts i x, normal (AChoice alts) (VAlt i x) = alt_of True (fun s => normal s x) alts i.
Proof.
  intros alts i x. cbn [normal]. revert i. induction alts as [|[n p s] alts IH]; intros [|i]; try reflexivity. exact (IH i).
Qed.

(** ** Primitive values *)

Lemma encoding_single : forall b, one_encoding b -> single b = true.
Proof.
  intros b (c & n & k & cs & NE & T). unfold single.
  assert (E : enc_header (mkTag c k n) false cs = Some b) by (rewrite header_spec; cbn [tcls tnum tcons]; rewrite orb_false_r; exact T).
  pose proof (dec_enc_header _ _ _ _ [] E) as D. rewrite app_nil_r in D. rewrite D. cbn [tcls tnum tcons].
  apply negb_true_iff, not_true_is_false. intro Q. apply NE. cbn [tags_eqb list_eqb eoo] in Q. unfold tag_eqb in Q. cbn [tcls tnum] in Q.
  rewrite !andb_true_iff in Q. destruct Q as [[Q1 Q2] _]. apply N.eqb_eq in Q2. subst n. destruct c; try discriminate Q1. reflexivity.
Qed.
Lemma bytes_ok : forall b, forallb (fun x => N.ltb x 256) b = true -> forallb is_byte b = true.
Proof. intros b H. exact H. Qed.
Lemma arcs_oid : forall a, arcs_ok a = true -> oid_ok a = true.
Proof.
  intros [|x [|y r]] H; try discriminate H. cbn [arcs_ok oid_ok] in *. rewrite andb_true_iff, orb_true_iff in *. destruct H as [H [K|K]]; (split; [exact H|]); [left; exact K|].
  right. apply N.leb_le in K. apply N.ltb_lt. lia.
Qed.
Lemma prim_conf : forall p k v m, same_prim p k = true -> prim_has p v = true -> regular_prim p v = true ->
  csat [] (spec m) v = true -> conf_prim k m v = true.
Proof.
  intros p k v m S H R C. unfold conf_prim. rewrite C. cbn [andb].
  destruct p as [|l|l|l| | | |k0]; destruct k; try discriminate S; destruct v; try discriminate H; try reflexivity; cbn [prim_has] in H.
  - exact (bytes_ok _ H).
  - exact (arcs_oid _ H).
  - apply str_eqb_ok in S. subst s. pose proof (text_spec k0 t H) as T. unfold enc_text in T.
    destruct (forallb (encodable (charset_of k0)) t); [|discriminate T]. cbn [andb].
    destruct (time_bounds k0) as [[lo hi]|] eqn:TB; [|reflexivity].
    assert (NT : norm_time lo hi t = Ok t).
    { destruct k0; try discriminate TB; inversion TB; subst; [exact (gen_norm t H R)|exact (utc_norm t H)]. }
    rewrite NT. clear. induction t as [|c t IH]; [reflexivity|]. cbn [list_eqb]. rewrite N.eqb_refl. exact IH.
Qed.

(** ** Values of an agreeing type conform to it *)

Lemma octs_refl : forall b : bytes, list_eqb N.eqb b b = true.
Proof. induction b as [|c t IH]; [reflexivity|]. cbn [list_eqb]. rewrite N.eqb_refl. exact IH. Qed.
Lemma huge_refl : forall o, res_eqb (huge o) (huge o) = true.
Proof. intros [b|]; [exact (octs_refl b)|reflexivity]. Qed.
Lemma sorted_same : forall l, sorted octets_before l = isort octs_le l.
Proof.
  intro l. assert (F : Forall2 eq (sorted octets_before l) (isort octs_le l)).
  { apply sorted_isort; [intros a b a' b' -> ->; apply pad_spec|]. induction l; constructor; auto. }
  revert F. generalize (sorted octets_before l) (isort octs_le l). intros a b F.
  induction F as [|x y a b -> F IH]; [reflexivity|]. rewrite IH. reflexivity.
Qed.

Lemma part_nth : forall f fs i x, part f fs i x = match nth_error fs i with Some g => f (ftype g) x | None => false end.
Proof. intros f fs. induction fs as [|[n p t d o] fs IH]; intros [|i] x; try reflexivity. exact (IH i x). Qed.

Section reads.
  Variables (sk : list exempt) (nm bd : bool).
  Definition conf_ok (s : sty) : Prop := forall over acc cs t v, agrees_but sk nm bd s over acc cs t = true -> has s v = true ->
    spares sk s v = true -> regular false s v = true -> normal s v -> everywhere open_plain t = true -> allowed t v = true -> conf None t v = true.

  Lemma slots_ok : forall fs, Forall (fun f => conf_ok (sf_type f)) fs -> forall fs0 vs0 gs vs, agree_fields sk nm bd fs gs = true ->
    has_fields fs vs = true -> spare_fields sk fs vs = true -> regular_fields fs vs = true -> normal_fields fs vs ->
    forallb (fun f => negb (is_some (fopen f)) || match fpres f with Def => false | _ => true end) gs = true ->
    everywhere_all open_plain gs = true -> parts allowed gs vs = true -> conf_slots None fs0 vs0 gs vs = true.
  Proof.
    intros fs F fs0 vs0. induction F as [|[n p s] fs P F IH]; intros [|[n' q t d opn] gs] [|o vs] A H SP R N O EV B; try discriminate A; try discriminate H; [reflexivity|].
    cbn [agree_fields] in A. fold (agree_fields sk nm bd) in A. rewrite !andb_true_iff in A. destruct A as [[[_ A0] A2] A3].
    cbn [has_fields] in H. fold has_fields in H. apply andb_true_iff in H. destruct H as [H1 H2].
    cbn [spare_fields] in SP. fold (spare_fields sk) in SP. apply andb_true_iff in SP. destruct SP as [S1 S2].
    destruct (slot_agrees _ _ _ _ _ _ _ _ _ _ S1 A0 A2) as [NE YE]. clear S1 A0 A2.
    cbn [regular_fields] in R. fold regular_fields in R. apply andb_true_iff in R. destruct R as [R1 R2].
    cbn [normal_fields] in N. fold normal_fields in N. destruct N as [N1 N2].
    cbn [forallb fopen fpres] in O. apply andb_true_iff in O. destruct O as [O1 O2].
    unfold everywhere_all in EV. cbn [forallb ftype] in EV. apply andb_true_iff in EV. destruct EV as [E1 E2].
    cbn [parts] in B. apply andb_true_iff in B. destruct B as [B1 B2].
    cbn [conf_slots]. apply andb_true_iff. split; [|exact (IH gs vs A3 H2 S2 R2 N2 O2 E2 B2)].
    cbn [sf_type] in P. unfold conf_slot. cbn [fpres fdef fopen ftype]. destruct o as [x|].
    - destruct (encoded p (Some x)) eqn:EN.
      + apply orb_true_iff. right. cbn [negb orb] in R1. destruct (YE x eq_refl eq_refl) as (A2 & SX & A1). clear NE YE.
        pose proof (P None [] [] t x A2 H1 SX (regular_less _ _ _ R1) (N1 eq_refl) E1 B1) as C.
        replace (entry_for None fs0 vs0 (Fld n' q t d opn)) with (@Some (option (aval -> bool)) None) by (unfold entry_for; cbn [fopen]; destruct opn as [[]|]; reflexivity).
        rewrite C. cbn [andb]. apply andb_true_iff. split.
        * destruct (is_opt q) eqn:Q; [|reflexivity]. cbn [negb orb]. destruct q; try discriminate Q.
          assert (RT : regular true s x = true) by (destruct A1 as [A1|[A1 _]]; [destruct p; try discriminate A1; exact R1|exact A1]).
          rewrite (enc_der sk nm bd s None [] [] t x true (is_some opn) A2 H1 SX eq_refl RT).
          rewrite (enc_der sk nm bd s None [] [] t x false (is_some opn) A2 H1 SX eq_refl (regular_less _ _ _ RT)). apply huge_refl.
        * destruct A1 as [A1|[_ A1]].
          -- destruct p as [| |dv], q; try discriminate A1; try reflexivity. destruct d as [w|]; [|discriminate A1].
             cbn [same_need] in A1. apply aval_eqb_sound in A1. subst w. exact EN.
          -- destruct q; try reflexivity. destruct A1 as (w & -> & A1). rewrite A1. reflexivity.
      + apply orb_true_iff. left. pose proof (NE eq_refl) as A1. destruct p as [| |dv]; try discriminate EN. cbn [encoded] in EN. apply negb_false_iff in EN.
        destruct q; try discriminate A1. destruct d as [w|]; [|discriminate A1]. cbn [same_need] in A1. apply aval_eqb_sound in A1. subst w.
        rewrite EN. destruct opn; [discriminate O1|reflexivity].
    - assert (A1 : same_need p q d = true) by (apply NE; destruct p; reflexivity).
      destruct p, q; try discriminate A1; try discriminate H1; [reflexivity|contradiction].
  Qed.

  Lemma seq_conf : forall set fs, Forall (fun f => conf_ok (sf_type f)) fs -> conf_ok (if set : bool then ASet fs else ASeq fs).
  Proof.
    intros set fs F over acc cs t v A H SP R N OP B.
    assert (SH : exists m gs, t = TSeq set m gs /\ agree_fields sk nm bd fs gs = true).
    { destruct set; cbn [agrees_but] in A; destruct t as [|b m gs| |]; try discriminate A; destruct b; try discriminate A;
      rewrite !andb_true_iff in A; destruct A as [[[A1 A2] A3] A4]; exists m, gs; auto. }
    destruct SH as (m & gs & -> & A4).
    assert (V : exists vs, v = VSeq vs). { destruct set; cbn [has] in H; destruct v; try discriminate H; eexists; reflexivity. }
    destruct V as (vs & ->).
    assert (H' : has_fields fs vs = true) by (destruct set; exact H).
    assert (SP' : spare_fields sk fs vs = true) by (destruct set; exact SP).
    assert (R' : regular_fields fs vs = true) by (destruct set; cbn [regular] in R; apply andb_true_iff in R; exact (proj1 R)).
    assert (N' : normal_fields fs vs) by (destruct set; exact N).
    cbn [everywhere] in OP. rewrite everywhere_go in OP. apply andb_true_iff in OP. destruct OP as [O1 O2]. cbn [open_plain] in O1. apply andb_true_iff in O1. destruct O1 as [O1 _].
    cbn [allowed] in B. apply andb_true_iff in B. destruct B as [B1 B2].
    rewrite conf_seq, B1. cbn [andb]. exact (slots_ok fs F gs vs gs vs A4 H' SP' R' N' O1 O2 B2).
  Qed.

  Lemma of_conf : forall set s, conf_ok s -> conf_ok (if set : bool then ASetOf s else ASeqOf s).
  Proof.
    intros set s P over acc cs t v A H SP R N OP B.
    assert (SH : exists m t', t = TOf set m (Some t') /\ agrees_but sk nm bd s None [] [] t' = true).
    { destruct set; cbn [agrees_but] in A; destruct t as [| |b m o|]; try discriminate A; destruct b; try discriminate A; destruct o as [t'|]; try discriminate A;
      rewrite !andb_true_iff in A; destruct A as [[[A1 A2] A3] A4]; exists m, t'; auto. }
    destruct SH as (m & t' & -> & A4).
    assert (V : exists vs, v = VList vs). { destruct set; cbn [has] in H; destruct v; try discriminate H; eexists; reflexivity. }
    destruct V as (vs & ->).
    assert (H' : forallb (has s) vs = true) by (destruct set; exact H).
    assert (SP' : forallb (spares sk s) vs = true) by (destruct set; exact SP).
    assert (R' : forallb (regular false s) vs = true) by (destruct set; cbn [regular] in R; apply andb_true_iff in R; exact (proj1 R)).
    assert (N' : forall x, In x vs -> normal s x) by (destruct set; [exact (proj1 N)|exact N]).
    cbn [allowed] in B. apply andb_true_iff in B. destruct B as [B1 B2].
    cbn [everywhere open_plain andb] in OP. cbn [conf]. rewrite B1, orb_true_r. cbn [andb]. rewrite andb_true_iff. split.
    - apply forallb_forall. intros x I. exact (P None [] [] t' x A4 (proj1 (forallb_forall _ _) H' x I) (proj1 (forallb_forall _ _) SP' x I) (proj1 (forallb_forall _ _) R' x I) (N' x I) OP (proj1 (forallb_forall _ _) B2 x I)).
    - destruct set; [|reflexivity]. cbn [negb orb]. pose proof (list_ok sk nm bd s (enc_der sk nm bd s) t' false false vs A4 H' SP' R') as L.
      unfold enc_list in L. rewrite L. destruct N as [_ N]. destruct (all_some (map (der s None) vs)) as [l|]; [|reflexivity].
      rewrite <- sorted_same. rewrite N. clear. induction l as [|b l IH]; [reflexivity|]. cbn [list_eqb]. rewrite octs_refl. exact IH.
  Qed.

  Theorem conf_agree : forall s, conf_ok s.
  Proof.
    induction s as [p| |fs IH|fs IH|s IH|s IH|alts IH|c n e s IH|c s IH] using sty_ind2.
    - intros over acc cs t v A H SP R N OP B. cbn [agrees_but] in A. destruct t as [k m| | |]; try discriminate A.
      rewrite !andb_true_iff in A. destruct A as [[[A1 _] _] _]. cbn [conf]. exact (prim_conf p k v m A1 H R B).
    - intros over acc cs t v A H SP R N OP B. cbn [agrees_but] in A. destruct t as [k m| | |]; try discriminate A. destruct k; try discriminate A.
      cbn [has] in H. destruct v as [| | |b| | | | | | |]; try discriminate H.
      cbn [normal] in N. cbn [allowed] in B. cbn [conf]. unfold conf_prim. rewrite B. cbn [andb].
      rewrite (encoding_single b N), orb_true_r, andb_true_r. destruct b; [discriminate H|exact (bytes_ok _ H)].
    - exact (seq_conf false fs IH).
    - exact (seq_conf true fs IH).
    - exact (of_conf false s IH).
    - exact (of_conf true s IH).
    - intros over acc cs t v A H SP R N OP B. cbn [agrees_but] in A. destruct t as [| | |m gs]; try discriminate A.
      rewrite !andb_true_iff in A. destruct A as [_ A2]. fold (agree_alts sk nm bd) in A2.
      destruct v as [| | | | | | | | |i x|]; try discriminate H. rewrite has_choice in H. rewrite regular_choice in R. rewrite normal_choice in N. unfold alt_of in H, R, N.
      rewrite spares_choice in SP. destruct (nth_error alts i) as [f|] eqn:E; [|discriminate H].
      destruct (alt_spared _ _ _ SP) as [SP1 SP2]. destruct (alts_nth _ _ _ _ _ A2 i f E SP1) as (g & G & AG).
      pose proof (proj1 (Forall_forall _ _) IH f (nth_error_In _ _ E)) as P.
      cbn [everywhere] in OP. rewrite everywhere_go in OP. apply andb_true_iff in OP. destruct OP as [_ OP].
      cbn [allowed] in B. rewrite part_nth, G in B.
      rewrite conf_choice, G. exact (P None [] [] (ftype g) x AG H SP2 R N (proj1 (forallb_forall _ _) OP g (nth_error_In _ _ G)) B).
    - intros over acc cs t v A H SP R N OP B. cbn [agrees_but] in A. destruct e; exact (IH _ _ _ t v A H SP R N OP B).
    - intros over acc cs t v A H SP R N OP B. cbn [agrees_but] in A. cbn [has] in H. apply andb_true_iff in H. exact (IH over acc (c :: cs) t v A (proj2 H) SP R N OP B).
  Qed.
End reads.

(** Values of a type are within its bounds. *)
Lemma has_shaped : forall s v, has s v = true -> shaped s v = true /\ bounded s v = true.
Proof.
  assert (F : forall fs, Forall (fun f => forall v, has (sf_type f) v = true -> shaped (sf_type f) v = true /\ bounded (sf_type f) v = true) fs ->
    forall vs, has_fields fs vs = true -> components shaped fs vs = true /\ components bounded fs vs = true).
  { induction fs as [|[n p s] fs IH]; intros HF [|o vs] H; try discriminate H; [split; reflexivity|]. inversion HF as [|? ? P1 P2]; subst.
    cbn [has_fields] in H. fold has_fields in H. apply andb_true_iff in H. destruct H as [H1 H2]. destruct (IH P2 vs H2) as [I1 I2].
    cbn [components sf_type] in *. rewrite I1, I2, !andb_true_r. destruct o as [x|]; [exact (P1 x H1)|split; reflexivity]. }
  induction s as [p| |fs IH|fs IH|s IH|s IH|alts IH|c n e s IH|c s IH] using sty_ind2; intros v H.
  - split; [|reflexivity]. cbn [has shaped] in *. destruct p, v; try discriminate H; try reflexivity; exact H.
  - split; [|reflexivity]. cbn [has shaped] in *. destruct v; try discriminate H. reflexivity.
  - destruct v; try discriminate H. exact (F fs IH vs H).
  - destruct v; try discriminate H. exact (F fs IH vs H).
  - cbn [has shaped bounded] in *. destruct v; try discriminate H. split; apply forallb_forall; intros x I; apply IH, (proj1 (forallb_forall _ _) H x I).
  - cbn [has shaped bounded] in *. destruct v; try discriminate H. split; apply forallb_forall; intros x I; apply IH, (proj1 (forallb_forall _ _) H x I).
  - destruct v as [| | | | | | | | |i x|]; try discriminate H. rewrite has_choice in H. unfold alt_of in H. cbn [shaped bounded].
    clear F. revert i H. induction IH as [|[n p s] alts P IH1 IH2]; intros [|i] H; try discriminate H; [exact (P x H)|exact (IH2 i H)].
  - exact (IH v H).
  - cbn [has shaped bounded] in *. apply andb_true_iff in H. destruct H as [H1 H2]. destruct (IH v H2) as [I1 I2]. rewrite H1, I1, I2. split; reflexivity.
Qed.

(** der.decoder.decode reads the DER encoding. *)
Theorem decode_reads_der_but : forall sk nm bd s t v b rest, agrees_but sk nm bd s None [] [] t = true -> wf t = true -> everywhere open_plain t = true ->
  has s v = true -> spares sk s v = true -> regular false s v = true -> normal s v -> allowed t v = true -> DER s v = Some b ->
  decode t (b ++ rest) = Ok (v, rest).
Proof.
  intros sk nm bd s t v b rest A W OP H SP R N B D. apply (plain_round_trip t v b rest W (conf_agree sk nm bd s None [] [] t v A H SP R N OP B)).
  rewrite (encode_is_der_but sk nm bd s t v A H SP R), D. reflexivity.
Qed.
Theorem decode_reads_der : forall nm bd s t v b rest, agrees nm bd s None [] [] t = true -> wf t = true -> everywhere open_plain t = true ->
  has s v = true -> regular false s v = true -> normal s v -> allowed t v = true -> DER s v = Some b -> decode t (b ++ rest) = Ok (v, rest).
Proof. intros nm bd s t v b rest A W OP H. exact (decode_reads_der_but [] nm bd s t v b rest A W OP H (spares_all s v)). Qed.

End codec.
