(** What decodes with more types registered decodes with fewer. *)
From Coq Require Import List String ZArith NArith Bool Lia.
From Verif Require Import Asn1.Types Py.Eval Asn1.EqbFacts Asn1.Bytes Asn1.Der Asn1.Wf Asn1.RoundTrip Asn1.Total Asn1.Open Asn1.Inside Asn1.OpenDepth Asn1.Opening.
Import ListNotations.
Open Scope string_scope.
Open Scope list_scope.

Section codec.
Context {Cdc : codec}.

(** Every entry of [R1] is in [R2]. *)
Definition fewer (R1 R2 : registry) : Prop := forall d k u, R1 d k = Some u -> R2 d k = Some u.

Section two.
  Variables (R1 R2 : registry) (O1 O2 : opener) (l1 l2 : nat).
  Hypothesis twin1 : forall t, everywhere open_plain t = true -> twin R1 O1 l1 t.
  Hypothesis twin2 : forall t, everywhere open_plain t = true -> twin R2 O2 l2 t.
  Hypothesis less : forall d k g1, O1 d k = Some g1 -> exists g2, O2 d k = Some g2 /\ forall b w, g2 b = Ok w -> exists w', g1 b = Ok w'.

  Definition acc (t : asn1) : Prop := forall ts tlv c w, dec_val (Some O2) t ts tlv c = Ok w -> exists w', dec_val (Some O1) t ts tlv c = Ok w'.

  Lemma one_acc : forall k1 k2 t s w r, c_map k1 = c_map k2 -> c_val k1 = dec_val (Some O1) t -> c_val k2 = dec_val (Some O2) t -> acc t ->
    dec_one k2 s = Ok (w, r) -> exists w', dec_one k1 s = Ok (w', r).
  Proof.
    intros k1 k2 t s w r M V1 V2 A H. unfold dec_one in *. rewrite M, V1. rewrite V2 in H. destruct (tok (c_map k2)); [|discriminate H].
    destruct (item (accepts (c_map k2)) s) as [[[[ts tlv] c] rest]| | |]; try discriminate H. cbn [rbind] in *.
    apply rbind_ok in H. destruct H as (v & H & E). assert (rest = r) by congruence. subst r. destruct (A _ _ _ _ H) as (w' & ->). eexists. reflexivity.
  Qed.
  Definition accs (fs : list field) : Prop := forall f, In f fs -> acc (ftype f).
  Lemma run_acc : forall fs s i w r, accs fs -> dec_run (map (fcomp (Some O2)) fs) s = Ok (i, w, r) ->
    exists w', dec_run (map (fcomp (Some O1)) fs) s = Ok (i, w', r).
  Proof.
    intros fs s i w r A H. unfold dec_run in *. rewrite comps_map in *. destruct (tok (tmap_union (map fmap fs))); [|discriminate H].
    destruct (item _ s) as [[[[ts tlv] c] rest]| | |]; try discriminate H. cbn [rbind] in *.
    rewrite choose_field in *. destruct (fchoose fs ts) as [[j f]| | |] eqn:C; try discriminate H. cbn [rbind fcomp c_val] in *.
    apply fchoose_nth in C. apply rbind_ok in H. destruct H as (v & H & E). assert (j = i) by congruence. assert (rest = r) by congruence. subst j r.
    destruct (A f (nth_error_In _ _ C) _ _ _ _ H) as (w' & ->). eexists. reflexivity.
  Qed.
  Lemma accs_sub : forall fs gs, accs fs -> (forall f, In f gs -> In f fs) -> accs gs.
  Proof. intros fs gs T H f I. exact (T f (H f I)). Qed.
  Lemma seq_acc : forall n fs s ws, accs fs -> dec_seq n (map (fcomp (Some O2)) fs) s = Ok ws -> exists ws', dec_seq n (map (fcomp (Some O1)) fs) s = Ok ws'.
  Proof.
    assert (Z : forall n fs ws, dec_seq n (map (fcomp (Some O2)) fs) [] = Ok ws -> exists ws', dec_seq n (map (fcomp (Some O1)) fs) [] = Ok ws').
    { intros n fs ws H. destruct n; cbn [dec_seq] in *; rewrite existsb_required in *; (destruct (existsb _ fs); [discriminate H|]); eexists; reflexivity. }
    induction n as [|n IH]; intros fs s ws A H.
    - destruct s as [|b s]; [exact (Z _ _ _ H)|]. destruct fs; discriminate H.
    - destruct s as [|b s]; [exact (Z _ _ _ H)|]. destruct fs as [|f fs]; [discriminate H|]. cbn [map] in *. rewrite dec_seq_step in *.
      rewrite required_field in *. destruct (match fpres f with Req => true | _ => false end).
      + apply rbind_ok in H. destruct H as ([w r] & H1 & H). apply rbind_ok in H. destruct H as (ws0 & H2 & _).
        destruct (one_acc (fcomp (Some O1) f) (fcomp (Some O2) f) (ftype f) (b :: s) w r eq_refl eq_refl eq_refl (A f (or_introl eq_refl)) H1) as (w' & ->).
        cbn [rbind]. destruct (IH fs r ws0 (fun g I => A g (or_intror I)) H2) as (ws' & ->). eexists. reflexivity.
      + change (fcomp (Some O1) f :: map (fcomp (Some O1)) fs) with (map (fcomp (Some O1)) (f :: fs)).
        change (fcomp (Some O2) f :: map (fcomp (Some O2)) fs) with (map (fcomp (Some O2)) (f :: fs)) in H.
        set (l := f :: fs) in *. clearbody l. clear f fs. rewrite run_fields in *.
        apply rbind_ok in H. destruct H as ([[i w] r] & H1 & H). apply rbind_ok in H. destruct H as (ws0 & H2 & _).
        assert (A' : accs (frun l)).
        { apply (accs_sub l); [exact A|]. intros g I. apply In_nth_error in I. destruct I as (j & I). exact (nth_error_In _ _ (frun_nth _ _ _ I)). }
        destruct (run_acc _ _ _ _ _ A' H1) as (w' & ->). cbn [rbind]. rewrite skipn_map in *.
        destruct (IH _ r ws0 (accs_sub _ _ A (skipn_in _ _)) H2) as (ws' & ->). eexists. reflexivity.
  Qed.
  Lemma list_acc : forall t, acc t -> forall n s ws, dec_list n (part (Some O2) t) s = Ok ws -> exists ws', dec_list n (part (Some O1) t) s = Ok ws'.
  Proof.
    intros t A n. induction n as [|n IH]; intros [|b s] ws H; try (eexists; reflexivity); try discriminate H. cbn [dec_list] in *.
    apply rbind_ok in H. destruct H as ([w r] & H1 & H). apply rbind_ok in H. destruct H as (ws0 & H2 & _).
    destruct (one_acc (part (Some O1) t) (part (Some O2) t) t _ _ _ eq_refl eq_refl eq_refl A H1) as (w' & ->). cbn [rbind].
    destruct (IH _ _ H2) as (ws' & ->). eexists. reflexivity.
  Qed.

  Lemma rmap_acc : forall (g1 g2 : bytes -> res aval) l ws, (forall b w, g2 b = Ok w -> exists w', g1 b = Ok w') ->
    rmap (reopen g2) l = Ok ws -> octets_of (VList l) /\ exists ws', rmap (reopen g1) l = Ok ws'.
  Proof.
    intros g1 g2 l. induction l as [|x l IH]; intros ws G H; [split; [intros x []|eexists; reflexivity]|]. cbn [rmap] in *.
    apply rbind_ok in H. destruct H as (y & H1 & H). apply rbind_ok in H. destruct H as (r & H2 & _). destruct x; try discriminate H1. cbn [reopen] in *.
    destruct (IH _ G H2) as [OC (r' & ->)]. split.
    - intros x [<-|I]; [eauto|exact (OC x I)].
    - destruct (G _ _ H1) as (w' & ->). eexists. reflexivity.
  Qed.
  Lemma slot_acc : forall fs vs ws1 ws2 f o o1 o2 p, slots R1 fs vs ws1 -> slots R2 fs vs ws2 -> slot R1 f o o1 -> slot R2 f o o2 -> plain_field f = true ->
    open_slot O2 fs ws2 f o2 = Ok p -> exists p', open_slot O1 fs ws1 f o1 = Ok p'.
  Proof.
    intros fs vs ws1 ws2 f o o1 o2 p SL1 SL2 S1 S2 PF H. unfold open_slot in *. destruct (fopen f) as [[n d]|] eqn:FO; [|eexists; reflexivity].
    assert (LO : left_out f = None).
    { unfold plain_field in PF. rewrite FO in PF. cbn [is_some negb orb] in PF. unfold left_out. destruct (fpres f); [reflexivity|reflexivity|discriminate PF]. }
    destruct S1 as [[-> ->]|(v & w1 & -> & -> & Q1)]; [rewrite LO; eexists; reflexivity|].
    destruct S2 as [[-> E]|(v' & w2 & E & -> & Q2)]; [rewrite LO in E; discriminate E|]. assert (v' = v) by congruence. subst v'. clear E.
    rewrite (slots_gov _ _ _ _ SL1 n). rewrite (slots_gov _ _ _ _ SL2 n) in H. destruct (gov_key (slot_of fs vs n)) as [k|]; [|destruct (existsb _ _); discriminate H].
    destruct (O1 d k) as [g1|] eqn:E1; [|eexists; reflexivity]. destruct (less _ _ _ E1) as (g2 & E2 & G). rewrite E2 in H.
    destruct w2 as [| | |b| | | | |l| |]; try (cbn in H; discriminate H).
    - apply rbind_ok in H. destruct H as (y & H & _). cbn [reopen] in H. pose proof (opens_octets _ _ _ _ Q2) as ->.
      rewrite (opens_shape _ _ _ _ Q1 I). cbn [reopen]. destruct (G _ _ H) as (w' & ->). eexists. reflexivity.
    - apply rbind_ok in H. destruct H as (ys & H & _). destruct (rmap_acc _ _ _ _ G H) as [OC (ys' & E)].
      pose proof (opens_shape_back _ _ _ _ Q2 OC) as ->. rewrite (opens_shape _ _ _ _ Q1 OC). rewrite E. eexists. reflexivity.
  Qed.
  Lemma slots_acc : forall fs0 vs0 ws01 ws02, slots R1 fs0 vs0 ws01 -> slots R2 fs0 vs0 ws02 ->
    forall fs vs ws1, slots R1 fs vs ws1 -> forall ws2 ps, slots R2 fs vs ws2 -> forallb plain_field fs = true ->
    open_slots O2 fs0 ws02 fs ws2 = Ok ps -> exists ps', open_slots O1 fs0 ws01 fs ws1 = Ok ps'.
  Proof.
    intros fs0 vs0 ws01 ws02 SL1 SL2 fs vs ws1 S1. induction S1 as [|f fs o vs o1 ws1 A1 S1 IH]; intros ws2 ps S2 PF H; [eexists; reflexivity|].
    inversion S2 as [|f' fs' o' vs' o2 ws2' A2 S2']; subst. cbn [forallb] in PF. apply andb_true_iff in PF. destruct PF as [P1 P2]. cbn [open_slots] in *.
    apply rbind_ok in H. destruct H as (p & B1 & H). apply rbind_ok in H. destruct H as (r & B2 & _).
    destruct (slot_acc _ _ _ _ _ _ _ _ _ SL1 SL2 A1 A2 P1 B1) as (p' & ->). cbn [rbind].
    destruct (IH _ _ S2' P2 B2) as (r' & ->). eexists. reflexivity.
  Qed.

  Lemma same_acc : forall t, everywhere closed t = true -> acc t.
  Proof. intros t CL ts tlv c w H. rewrite (dec_closed O2 t CL) in H. rewrite (dec_closed O1 t CL). eauto. Qed.
  Theorem all_acc : forall t, everywhere open_plain t = true -> acc t.
  Proof.
    intro t. induction t as [k m|s m fs IH|s m t IH|s m|m fs IH] using asn1_ind2; intro OP.
    - apply same_acc. reflexivity.
    - cbn [everywhere] in OP. rewrite everywhere_go in OP. apply andb_true_iff in OP. destruct OP as [OP EV]. cbn [open_plain] in OP.
      apply andb_true_iff in OP. destruct OP as [PF CL]. destruct s; [exact (same_acc _ CL)|]. clear CL.
      assert (EF : forall f, In f fs -> everywhere open_plain (ftype f) = true).
      { intros f I. unfold everywhere_all in EV. exact (proj1 (forallb_forall _ _) EV f I). }
      assert (A : accs fs). { intros f I. rewrite Forall_forall in IH. exact (IH f I (EF f I)). }
      assert (T1 : twins R1 O1 l1 fs) by (intros f I; exact (twin1 _ (EF f I))).
      assert (T2 : twins R2 O2 l2 fs) by (intros f I; exact (twin2 _ (EF f I))).
      clear IH EV EF. intros ts tlv c w H. rewrite dec_seq_val in *. destruct (constructed ts); [|discriminate H].
      assert (G : forall w, (let! vs := dec_seq (List.length (map (fcomp (Some O2)) fs)) (map (fcomp (Some O2)) fs) c in
         if existsb (fun f => is_some (fopen f)) fs then let! vs' := open_slots O2 fs vs fs vs in Ok (VSeq vs')
         else if ctruthy (spec m) && negb (csat (fnames fs) (spec m) (VSeq vs)) then Err else Ok (VSeq vs)) = Ok w ->
        exists w', (let! vs := dec_seq (List.length (map (fcomp (Some O1)) fs)) (map (fcomp (Some O1)) fs) c in
         if existsb (fun f => is_some (fopen f)) fs then let! vs' := open_slots O1 fs vs fs vs in Ok (VSeq vs')
         else if ctruthy (spec m) && negb (csat (fnames fs) (spec m) (VSeq vs)) then Err else Ok (VSeq vs)) = Ok w').
      { clear H w. intros w H. rewrite map_length in *. apply rbind_ok in H. destruct H as (ws2 & D2 & H).
        destruct (seq_acc _ _ _ _ A D2) as (ws1 & D1). rewrite D1. cbn [rbind].
        destruct (proj1 (seq_twin R1 O1 l1 (List.length fs) fs c T1) _ D1) as (vs & D0 & SL1).
        destruct (proj1 (seq_twin R2 O2 l2 (List.length fs) fs c T2) _ D2) as (vs' & D0' & SL2). assert (vs' = vs) by congruence. subst vs'.
        destruct (existsb (fun f => is_some (fopen f)) fs).
        - apply rbind_ok in H. destruct H as (ps & H & _). destruct (slots_acc _ _ _ _ SL1 SL2 _ _ _ SL1 _ _ SL2 PF H) as (ps' & ->). eexists. reflexivity.
        - rewrite <- (csat_present _ _ _ (slots_present _ _ _ _ SL2)) in H. rewrite <- (csat_present _ _ _ (slots_present _ _ _ _ SL1)).
          destruct (ctruthy (spec m) && negb _); [discriminate H|]. eexists. reflexivity. }
      destruct fs as [|f fs]; [destruct c; [exact (G _ H)|discriminate H]|exact (G _ H)].
    - cbn [everywhere] in OP. apply andb_true_iff in OP. destruct OP as [_ OP]. specialize (IH OP). intros ts tlv c w H. cbn [dec_val] in *.
      destruct (constructed ts); [|discriminate H]. apply rbind_ok in H. destruct H as (ws & H & _).
      destruct (list_acc t IH (List.length c) c ws H) as (ws' & E). unfold part in E. rewrite E. eexists. reflexivity.
    - apply same_acc. reflexivity.
    - cbn [everywhere] in OP. rewrite everywhere_go in OP. apply andb_true_iff in OP. destruct OP as [_ EV].
      assert (A : accs fs).
      { intros f I. rewrite Forall_forall in IH. apply (IH f I). unfold everywhere_all in EV. exact (proj1 (forallb_forall _ _) EV f I). }
      clear IH EV. intros ts tlv c w H. rewrite dec_choice_val in *. cbv zeta in *. destruct (tags_eqb ts (tags m)).
      + apply rbind_ok in H. destruct H as ([[i v] r] & H & _). destruct (run_acc _ _ _ _ _ A H) as (w' & ->). eexists. reflexivity.
      + rewrite choose_field in *. destruct (fchoose fs ts) as [[i f]| | |] eqn:C; try discriminate H. cbn [rbind fcomp c_val] in *.
        apply fchoose_nth in C. apply rbind_ok in H. destruct H as (v & H & _). destruct (A f (nth_error_In _ _ C) _ _ _ _ H) as (w' & ->). eexists. reflexivity.
  Qed.
End two.

Section registries.
  Variables R1 R2 : registry.
  Hypothesis RP2 : forall d k t, R2 d k = Some t -> everywhere open_plain t = true.
  Hypothesis RF : fewer R1 R2.
  Let RP1 : forall d k t, R1 d k = Some t -> everywhere open_plain t = true.
  Proof. intros d k t H. exact (RP2 _ _ _ (RF _ _ _ H)). Qed.

  Lemma opener_acc : forall n t, everywhere open_plain t = true -> acc (opener_of R1 n) (opener_of R2 n) t.
  Proof.
    induction n as [|n IH]; intros t OP;
      apply (all_acc R1 R2 _ _ _ _ (opener_twin R1 RP1 _) (opener_twin R2 RP2 _)); try exact OP; intros d k g1 H; cbn [opener_of] in *;
      destruct (R1 d k) as [u|] eqn:E; try discriminate H; rewrite (RF _ _ _ E); (eexists; split; [reflexivity|]); intros b w G.
    - discriminate G.
    - assert (g1 = fun s => let! (v, _) := decode_with (Some (opener_of R1 n)) u s in Ok (VTyped u (Some v))) by congruence. subst g1. cbv beta in *.
      apply rbind_ok in G. destruct G as ([v r] & G & _). pose proof (IH u (RP1 _ _ _ E)) as A.
      destruct (one_acc (opener_of R1 n) (opener_of R2 n) (comp_of (Some (opener_of R1 n)) u) (comp_of (Some (opener_of R2 n)) u) u b v r eq_refl eq_refl eq_refl A G) as (w' & D).
      unfold decode_with. rewrite D. eexists. reflexivity.
  Qed.

  (** What decodes with more types registered decodes with fewer, to the same value opened less. *)
  Theorem fewer_accepts : forall t s v2 r, everywhere open_plain t = true -> decode_open R2 t s = Ok (v2, r) ->
    exists v0 v1, decode t s = Ok (v0, r) /\ decode_open R1 t s = Ok (v1, r) /\ opens_to R1 t v0 v1 /\ opens_to R2 t v0 v2.
  Proof.
    intros t s v2 r OP H. destruct (open_is_plain R2 RP2 _ _ _ _ OP H) as (v0 & D0 & Q2).
    destruct (one_acc (opener_of R1 (S (List.length s))) (opener_of R2 (S (List.length s))) (comp_of (Some (opener_of R1 (S (List.length s)))) t)
      (comp_of (Some (opener_of R2 (S (List.length s)))) t) t s v2 r eq_refl eq_refl eq_refl (opener_acc _ t OP) H) as (v1 & D1).
    change (decode_open R1 t s = Ok (v1, r)) in D1. destruct (open_is_plain R1 RP1 _ _ _ _ OP D1) as (v0' & D0' & Q1).
    assert (v0' = v0) by congruence. subst v0'. exists v0, v1. auto.
  Qed.
End registries.

(** Registries with the same entries decode alike. *)
Lemma opener_same : forall R1 R2, (forall d k, R1 d k = R2 d k) -> (forall d k t, R2 d k = Some t -> everywhere open_plain t = true) ->
  forall n N, opener_agree N (opener_of R1 n) (opener_of R2 n).
Proof.
  intros R1 R2 E RP. induction n as [|n IH]; intros N d k; cbn [opener_of]; rewrite E; destruct (R2 d k) as [t|] eqn:D; try exact I; intros b _; [reflexivity|].
  rewrite (decode_agree (List.length b) _ _ t b (IH _) (RP _ _ _ D)) by lia. reflexivity.
Qed.
Theorem same_registries : forall R1 R2, (forall d k, R1 d k = R2 d k) -> (forall d k t, R2 d k = Some t -> everywhere open_plain t = true) ->
  forall t s, everywhere open_plain t = true -> decode_open R1 t s = decode_open R2 t s.
Proof. intros R1 R2 E RP t s OP. apply (decode_agree (List.length s)); [exact (opener_same _ _ E RP _ _)|exact OP|lia]. Qed.

End codec.
