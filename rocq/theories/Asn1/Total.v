(** What decoding does on arbitrary input: it consumes a non-empty prefix, its recursion
    bounds are never the reason for an error, mandatory components are present in what it
    returns. *)
From Coq Require Import List String ZArith NArith Bool Lia.
From Verif Require Import Asn1.Types Py.Eval Asn1.EqbFacts Asn1.Bytes Asn1.Charset Asn1.Der Asn1.Wf Asn1.RoundTrip.
Import ListNotations.
Open Scope string_scope.
Open Scope N_scope.
Open Scope list_scope.

Section codec.
Context {Cdc : codec}.

Lemma dec_header_shorter : forall s g c r, dec_header s = Some (g, c, r) -> (List.length c + List.length r + 2 <= List.length s)%nat.
Proof. intros s g c r H. destruct (dec_header_inv _ _ _ _ H) as (h & -> & L). rewrite !app_length. lia. Qed.

Lemma descend_rest : forall f accept ts s ts' tlv c rest, descend f accept ts s = Ok (ts', tlv, c, rest) ->
  exists p, s = p ++ rest /\ (2 <= List.length p)%nat.
Proof.
  intros [|f] accept ts s ts' tlv c rest H; [discriminate|]. cbn [descend] in H.
  destruct (dec_header s) as [[[g c0] r0]|] eqn:D; [|discriminate].
  destruct (dec_header_inv _ _ _ _ D) as (h & E & L).
  assert (r0 = rest).
  { destruct (accept (g :: ts)); [congruence|]. destruct (tcons g && negb (tclass_eqb (tcls g) Universal)); [|discriminate].
    apply rbind_ok in H. destruct H as ([[[a b] d] e] & _ & H). congruence. }
  subst r0. exists (h ++ c0). rewrite <- app_assoc. split; [exact E|]. rewrite app_length. lia.
Qed.

(** Decoding consumes at least one header and leaves a suffix of the input. *)
Theorem decode_suffix : forall O t s v rest, decode_with O t s = Ok (v, rest) -> exists p, s = p ++ rest /\ p <> [].
Proof.
  intros O t s v rest H. unfold decode_with, dec_one in H. destruct (tok _); [|discriminate].
  apply rbind_ok in H. destruct H as ([[[ts tlv] c] r] & A & B). apply rbind_ok in B. destruct B as (v' & _ & B).
  assert (r = rest) by congruence. subst r. destruct (descend_rest _ _ _ _ _ _ _ _ A) as (p & E & L).
  exists p. split; [exact E|]. intros ->. cbn in L. lia.
Qed.

Lemma dec_one_shorter : forall k s v r, dec_one k s = Ok (v, r) -> (List.length r < List.length s)%nat.
Proof.
  intros k s v rest H. unfold dec_one in H. destruct (tok _); [|discriminate].
  apply rbind_ok in H. destruct H as ([[[ts tlv] c] r] & A & B). apply rbind_ok in B. destruct B as (v' & _ & B).
  assert (r = rest) by congruence. subst r. destruct (descend_rest _ _ _ _ _ _ _ _ A) as (p & -> & L). rewrite app_length. lia.
Qed.
Lemma dec_run_shorter : forall cs s i v r, dec_run cs s = Ok (i, v, r) -> (List.length r < List.length s)%nat.
Proof.
  intros cs s i v rest H. unfold dec_run in H. destruct (tok _); [|discriminate].
  apply rbind_ok in H. destruct H as ([[[ts tlv] c] r] & A & B). apply rbind_ok in B. destruct B as ([j k] & _ & B).
  apply rbind_ok in B. destruct B as (v' & _ & B).
  assert (r = rest) by congruence. subst r. destruct (descend_rest _ _ _ _ _ _ _ _ A) as (p & -> & L). rewrite app_length. lia.
Qed.

(** ** The recursion bounds are immaterial *)

Lemma descend_fuel : forall f g accept ts s, (List.length s <= f)%nat -> (List.length s <= g)%nat ->
  descend f accept ts s = descend g accept ts s.
Proof.
  induction f as [|f IH]; intros g accept ts s F G.
  - destruct s; [|cbn in F; lia]. destruct g; reflexivity.
  - destruct g as [|g]; [destruct s; [reflexivity|cbn in G; lia]|]. cbn [descend].
    destruct (dec_header s) as [[[t c] r]|] eqn:D; [|reflexivity]. pose proof (dec_header_shorter _ _ _ _ D).
    destruct (accept (t :: ts)); [reflexivity|]. rewrite (IH g accept (t :: ts) c) by lia. reflexivity.
Qed.
Lemma dec_list_fuel : forall f g k s, (List.length s <= f)%nat -> (List.length s <= g)%nat -> dec_list f k s = dec_list g k s.
Proof.
  induction f as [|f IH]; intros g k s F G; destruct s as [|b s]; try (destruct g; reflexivity); try (cbn in F; lia).
  destruct g as [|g]; [cbn in G; lia|]. cbn [dec_list].
  destruct (dec_one k (b :: s)) as [[v r]| | |] eqn:D; try reflexivity. cbn [rbind].
  apply dec_one_shorter in D. cbn [List.length] in *. rewrite (IH g k r) by lia. reflexivity.
Qed.
Lemma dec_set_fuel : forall f g cs sl s, (List.length s <= f)%nat -> (List.length s <= g)%nat -> dec_set f cs sl s = dec_set g cs sl s.
Proof.
  induction f as [|f IH]; intros g cs sl s F G; destruct s as [|b s]; try (destruct g; reflexivity); try (cbn in F; lia).
  destruct g as [|g]; [cbn in G; lia|]. cbn [dec_set].
  destruct (dec_run cs (b :: s)) as [[[i v] r]| | |] eqn:D; try reflexivity. cbn [rbind].
  apply dec_run_shorter in D. cbn [List.length] in *. apply (IH g cs _ r); lia.
Qed.
Lemma dec_seq_fuel : forall f g cs s, (List.length cs <= f)%nat -> (List.length cs <= g)%nat -> dec_seq f cs s = dec_seq g cs s.
Proof.
  induction f as [|f IH]; intros g cs s F G.
  - destruct cs; [|cbn in F; lia]. destruct s; destruct g; reflexivity.
  - destruct g as [|g]; [destruct cs; [destruct s; reflexivity|cbn in G; lia]|].
    destruct s as [|b s]; [reflexivity|]. destruct cs as [|c cs]; [reflexivity|]. cbn [List.length] in F, G.
    change (dec_seq (S f) (c :: cs) (b :: s)) with
      (if required c then let! (v, s') := dec_one c (b :: s) in let! r := dec_seq f cs s' in Ok (Some v :: r)
       else let! (i, v, s') := dec_run (run (c :: cs)) (b :: s) in
            let! r := dec_seq f (skipn (S i) (c :: cs)) s' in Ok (map absent (firstn i (c :: cs)) ++ Some v :: r)).
    change (dec_seq (S g) (c :: cs) (b :: s)) with
      (if required c then let! (v, s') := dec_one c (b :: s) in let! r := dec_seq g cs s' in Ok (Some v :: r)
       else let! (i, v, s') := dec_run (run (c :: cs)) (b :: s) in
            let! r := dec_seq g (skipn (S i) (c :: cs)) s' in Ok (map absent (firstn i (c :: cs)) ++ Some v :: r)).
    destruct (required c).
    + destruct (dec_one c (b :: s)) as [[v r]| | |]; try reflexivity. cbn [rbind]. rewrite (IH g cs r) by lia. reflexivity.
    + destruct (dec_run (run (c :: cs)) (b :: s)) as [[[i v] r]| | |]; try reflexivity. cbn [rbind]. cbn [skipn].
      assert (LS : (List.length (skipn i cs) <= List.length cs)%nat) by (rewrite skipn_length; lia).
      rewrite (IH g (skipn i cs) r) by lia. reflexivity.
Qed.

(** ** Mandatory components *)

Definition slot_ok (k : comp) (o : option aval) : Prop :=
  match c_pres k with Req => o <> None | Opt => True | Def => c_def k = None \/ o <> None end.
Lemma absent_ok : forall k, required k = false -> slot_ok k (absent k).
Proof.
  intros k H. unfold slot_ok, absent, required in *. destruct (c_pres k); [discriminate|exact I|].
  destruct (c_def k); [right; discriminate|left; reflexivity].
Qed.
Lemma some_ok : forall k v, slot_ok k (Some v).
Proof. intros k v. unfold slot_ok. destruct (c_pres k); try discriminate; [exact I|right; discriminate]. Qed.
Lemma absents_ok : forall cs, existsb required cs = false -> Forall2 slot_ok cs (map absent cs).
Proof.
  induction cs as [|c cs IH]; intro H; [constructor|]. cbn [existsb] in H. apply orb_false_iff in H. destruct H as [A B].
  constructor; [exact (absent_ok _ A)|exact (IH B)].
Qed.

Lemma choose_in : forall cs ts i k, choose cs ts = Ok (i, k) -> nth_error cs i = Some k.
Proof.
  intros cs ts i k H. unfold choose in H.
  assert (FK : forall cs n i k, find_key n cs ts = Some (i, k) -> exists j, i = (n + j)%nat /\ nth_error cs j = Some k).
  { induction cs0 as [|c cs0 IH]; intros n i0 k0 E; [discriminate|]. cbn [find_key] in E. destruct (mem_tags ts (keys (c_map c))).
    - inversion E; subst. exists 0%nat. split; [lia|reflexivity].
    - destruct (IH _ _ _ E) as (j & -> & N). exists (S j). split; [lia|exact N]. }
  assert (FD : forall cs n i k, find_dflt n cs = Some (i, k) -> exists j, i = (n + j)%nat /\ nth_error cs j = Some k).
  { induction cs0 as [|c cs0 IH]; intros n i0 k0 E; [discriminate|]. cbn [find_dflt] in E. destruct (dflt (c_map c)).
    - inversion E; subst. exists 0%nat. split; [lia|reflexivity].
    - destruct (IH _ _ _ E) as (j & -> & N). exists (S j). split; [lia|exact N]. }
  destruct (find_key 0 cs ts) as [[j c]|] eqn:E.
  - inversion H; subst. destruct (FK _ _ _ _ E) as (j & -> & N). exact N.
  - destruct (find_dflt 0 cs) as [[j c]|] eqn:E2; [|discriminate]. destruct (c_any c); [|discriminate].
    inversion H; subst. destruct (FD _ _ _ _ E2) as (j & -> & N). exact N.
Qed.
Lemma dec_run_pos : forall cs s i v r, dec_run cs s = Ok (i, v, r) -> (i < List.length cs)%nat.
Proof.
  intros cs s i v rest H. unfold dec_run in H. destruct (tok _); [|discriminate].
  apply rbind_ok in H. destruct H as ([[[ts tlv] c] r] & _ & B). apply rbind_ok in B. destruct B as ([j k] & C & B).
  apply rbind_ok in B. destruct B as (v' & _ & B). assert (i = j) by congruence. subst j.
  apply choose_in in C. apply nth_error_Some. congruence.
Qed.

(** Before the chosen component of a run there are only non-mandatory ones. *)
Lemma run_prefix : forall cs i, (i < List.length (run cs))%nat -> existsb required (firstn i cs) = false /\ exists c, nth_error cs i = Some c.
Proof.
  induction cs as [|c cs IH]; intros i H; [cbn in H; lia|]. cbn [run] in H. destruct (required c) eqn:R.
  - cbn in H. assert (i = 0%nat) by lia. subst. split; [reflexivity|]. exists c. reflexivity.
  - destruct i as [|i]; [split; [reflexivity|]; exists c; reflexivity|]. cbn [List.length] in H.
    destruct (IH i ltac:(lia)) as [A B]. cbn [firstn existsb nth_error]. rewrite R. split; [exact A|exact B].
Qed.

Lemma dec_seq_ok : forall f cs s vs, dec_seq f cs s = Ok vs -> Forall2 slot_ok cs vs.
Proof.
  induction f as [|f IH]; intros cs s vs H.
  - destruct s as [|b s].
    + cbn in H. destruct (existsb required cs) eqn:E; [discriminate|]. assert (vs = map absent cs) by congruence. subst. apply absents_ok, E.
    + destruct cs; discriminate.
  - destruct s as [|b s].
    + cbn in H. destruct (existsb required cs) eqn:E; [discriminate|]. assert (vs = map absent cs) by congruence. subst. apply absents_ok, E.
    + destruct cs as [|c cs]; [discriminate|].
      change (dec_seq (S f) (c :: cs) (b :: s)) with
        (if required c then let! (v, s') := dec_one c (b :: s) in let! r := dec_seq f cs s' in Ok (Some v :: r)
         else let! (i, v, s') := dec_run (run (c :: cs)) (b :: s) in
              let! r := dec_seq f (skipn (S i) (c :: cs)) s' in Ok (map absent (firstn i (c :: cs)) ++ Some v :: r)) in H.
      destruct (required c) eqn:R.
      * apply rbind_ok in H. destruct H as ([v s'] & _ & H). apply rbind_ok in H. destruct H as (r & D & H).
        assert (vs = Some v :: r) by congruence. subst. constructor; [apply some_ok|exact (IH _ _ _ D)].
      * apply rbind_ok in H. destruct H as ([[i v] s'] & DR & H). apply rbind_ok in H. destruct H as (r & D & H).
        assert (vs = map absent (firstn i (c :: cs)) ++ Some v :: r) by congruence. subst vs.
        apply dec_run_pos in DR. destruct (run_prefix _ _ DR) as (A & c' & N). clear DR H.
        set (l := c :: cs) in *. clearbody l.
        destruct (nth_error_split _ _ N) as (l1 & l2 & -> & L1). clear N. subst i.
        rewrite firstn_app, Nat.sub_diag, firstn_all in *. cbn [firstn] in *. rewrite app_nil_r in *.
        apply Forall2_app; [apply absents_ok, A|]. constructor; [apply some_ok|].
        assert (SK : skipn (S (List.length l1)) (l1 ++ c' :: l2) = l2).
        { clear. induction l1 as [|x l1 IH]; [reflexivity|exact IH]. }
        rewrite SK in D. exact (IH _ _ _ D).
Qed.
Lemma fill_ok : forall cs sl vs, fill cs sl = Ok vs -> Forall2 slot_ok cs vs.
Proof.
  induction cs as [|c cs IH]; intros [|o sl] vs H; try discriminate.
  - cbn in H. assert (vs = []) by congruence. subst. constructor.
  - cbn [fill] in H. apply rbind_ok in H. destruct H as (r & D & H). destruct o as [v|].
    + assert (vs = Some v :: r) by congruence. subst. constructor; [apply some_ok|exact (IH _ _ D)].
    + destruct (required c) eqn:R; [discriminate|]. assert (vs = absent c :: r) by congruence. subst.
      constructor; [exact (absent_ok _ R)|exact (IH _ _ D)].
Qed.

Lemma open_slot_some : forall Op fs vs f o o', open_slot Op fs vs f o = Ok o' -> (o' = None <-> o = None).
Proof.
  intros Op fs vs f o o' H. unfold open_slot in H.
  destruct (fopen f) as [[n d]|]; [|assert (o' = o) by congruence; subst; tauto].
  destruct o as [v|]; [|assert (o' = None) by congruence; subst; tauto].
  destruct (gov_key (slot_of fs vs n)) as [k|]; [|destruct (existsb _ _); discriminate].
  destruct (Op d k) as [g|]; [|assert (o' = Some v) by congruence; subst; tauto].
  assert (o' <> None); [|split; intro; congruence].
  destruct v; try (apply rbind_ok in H; destruct H as (a & _ & H); congruence).
Qed.
Lemma open_slots_ok : forall Op fs0 vs0 O fs vs vs', open_slots Op fs0 vs0 fs vs = Ok vs' ->
  Forall2 slot_ok (map (fcomp O) fs) vs -> Forall2 slot_ok (map (fcomp O) fs) vs'.
Proof.
  intros Op fs0 vs0 O fs. induction fs as [|f fs IH]; intros [|o vs] vs' H F; try discriminate.
  - cbn in H. assert (vs' = []) by congruence. subst. constructor.
  - cbn [open_slots] in H. apply rbind_ok in H. destruct H as (o' & A & H). apply rbind_ok in H. destruct H as (r & B & H).
    assert (vs' = o' :: r) by congruence. subst. cbn [map] in *. inversion F as [|? ? ? ? F1 F2]; subst.
    constructor; [|exact (IH _ _ B F2)]. apply open_slot_some in A. unfold slot_ok in *. destruct (c_pres (fcomp O f)); intuition.
Qed.

(** In a decoded SEQUENCE or SET every mandatory component is present, and so is every
    component that has a default. *)
Definition present_ok (f : field) (o : option aval) : Prop :=
  match fpres f with Req => o <> None | Opt => True | Def => fdef f = None \/ o <> None end.
Lemma slot_present : forall O fs vs, Forall2 slot_ok (map (fcomp O) fs) vs -> Forall2 present_ok fs vs.
Proof.
  intros O fs. induction fs as [|f fs IH]; intros vs F; inversion F as [|? ? ? ? F1 F2]; subst; constructor; [exact F1|exact (IH _ F2)].
Qed.
Theorem decoded_complete : forall O isset m fs ts tlv c v, dec_val O (TSeq isset m fs) ts tlv c = Ok v ->
  exists vs, v = VSeq vs /\ Forall2 present_ok fs vs.
Proof.
  intros O isset m fs ts tlv c v H. rewrite dec_seq_val in H. destruct (constructed ts); [|discriminate].
  assert (K : (let cs := map (fcomp O) fs in
        let! vs := if isset then let! sl := dec_set (List.length c) cs (map (fun _ => None) cs) c in fill cs sl
                   else dec_seq (List.length cs) cs c in
        if existsb (fun f => is_some (fopen f)) fs then
          match O with None => Ok (VSeq vs) | Some Op => let! vs' := open_slots Op fs vs fs vs in Ok (VSeq vs') end
        else if ctruthy (spec m) && negb (csat (fnames fs) (spec m) (VSeq vs)) then Err
        else Ok (VSeq vs)) = Ok v).
  { destruct fs; [destruct c; [exact H|discriminate]|exact H]. }
  clear H. cbv zeta in K. apply rbind_ok in K. destruct K as (vs & D & K).
  assert (F : Forall2 slot_ok (map (fcomp O) fs) vs).
  { destruct isset; [apply rbind_ok in D; destruct D as (sl & _ & D); exact (fill_ok _ _ _ D)|exact (dec_seq_ok _ _ _ _ D)]. }
  destruct (existsb (fun f => is_some (fopen f)) fs).
  - destruct O as [Op|].
    + apply rbind_ok in K. destruct K as (vs' & A & K). exists vs'. split; [congruence|].
      exact (slot_present _ _ _ (open_slots_ok _ _ _ _ _ _ _ A F)).
    + exists vs. split; [congruence|exact (slot_present _ _ _ F)].
  - destruct (ctruthy (spec m) && negb (csat (fnames fs) (spec m) (VSeq vs))); [discriminate|].
    exists vs. split; [congruence|exact (slot_present _ _ _ F)].
Qed.
Corollary decode_complete : forall O isset m fs s v rest, decode_with O (TSeq isset m fs) s = Ok (v, rest) ->
  exists vs, v = VSeq vs /\ Forall2 present_ok fs vs.
Proof.
  intros O isset m fs s v rest H. unfold decode_with, dec_one in H. destruct (tok _); [|discriminate].
  apply rbind_ok in H. destruct H as ([[[ts tlv] c] r] & _ & B). apply rbind_ok in B. destruct B as (v' & D & B).
  assert (v' = v) by congruence. subst v'. exact (decoded_complete _ _ _ _ _ _ _ _ D).
Qed.

End codec.
