(** Open types nest no deeper than the input is long: the bound of [opener_of] is
    immaterial beyond the length of the input. *)
From Coq Require Import List String ZArith NArith Bool Lia.
From Verif Require Import Asn1.Types Py.Eval Asn1.EqbFacts Asn1.Bytes Asn1.Charset Asn1.Der Asn1.Wf Asn1.RoundTrip Asn1.RoundTrip2
  Asn1.Open Asn1.Total Asn1.Inside.
Import ListNotations.
Open Scope string_scope.
Open Scope N_scope.
Open Scope list_scope.

Section codec.
Context {Cdc : codec}.

Lemma descend_content : forall f accept ts s ts' tlv c rest, descend f accept ts s = Ok (ts', tlv, c, rest) ->
  (List.length c + 2 <= List.length s)%nat /\ (List.length tlv <= List.length s)%nat.
Proof.
  induction f as [|f IH]; intros accept ts s ts' tlv c rest H; [discriminate|]. cbn [descend] in H.
  destruct (dec_header s) as [[[g c0] r0]|] eqn:D; [|discriminate]. pose proof (dec_header_shorter _ _ _ _ D) as L.
  destruct (accept (g :: ts)).
  - inversion H; subst. rewrite firstn_length. lia.
  - destruct (tcons g && negb (tclass_eqb (tcls g) Universal)); [|discriminate].
    apply rbind_ok in H. destruct H as ([[[a b] d] e] & A & H). inversion H; subst. apply IH in A. lia.
Qed.

(** ** Components that agree on short contents *)

Definition comp_agree (N : nat) (k1 k2 : comp) : Prop :=
  c_pres k1 = c_pres k2 /\ c_def k1 = c_def k2 /\ c_map k1 = c_map k2 /\ c_any k1 = c_any k2 /\
  forall ts tlv c, (List.length c <= N)%nat -> c_val k1 ts tlv c = c_val k2 ts tlv c.

Lemma agree_maps : forall N cs1 cs2, Forall2 (comp_agree N) cs1 cs2 -> map c_map cs1 = map c_map cs2.
Proof. intros N cs1 cs2 H. induction H as [|k1 k2 cs1 cs2 A H IH]; [reflexivity|]. cbn. destruct A as (_ & _ & -> & _). rewrite IH. reflexivity. Qed.
Lemma agree_required : forall N k1 k2, comp_agree N k1 k2 -> required k1 = required k2.
Proof. intros N k1 k2 (A & _). unfold required. rewrite A. reflexivity. Qed.
Lemma agree_absent : forall N k1 k2, comp_agree N k1 k2 -> absent k1 = absent k2.
Proof. intros N k1 k2 (A & B & _). unfold absent. rewrite A, B. reflexivity. Qed.

Lemma dec_one_agree : forall N k1 k2 s, comp_agree N k1 k2 -> (List.length s <= N)%nat -> dec_one k1 s = dec_one k2 s.
Proof.
  intros N k1 k2 s (_ & _ & M & _ & V) L. unfold dec_one. rewrite M. destruct (tok (c_map k2)); [|reflexivity].
  destruct (item (accepts (c_map k2)) s) as [[[[ts tlv] c] rest]| | |] eqn:I; try reflexivity. cbn [rbind].
  apply descend_content in I. rewrite V by lia. reflexivity.
Qed.
Lemma find_key_agree : forall N cs1 cs2, Forall2 (comp_agree N) cs1 cs2 -> forall i ts,
  match find_key i cs1 ts, find_key i cs2 ts with
  | Some (a, k1), Some (b, k2) => a = b /\ comp_agree N k1 k2
  | None, None => True
  | _, _ => False
  end.
Proof.
  intros N cs1 cs2 H. induction H as [|k1 k2 cs1 cs2 A H IH]; intros i ts; [exact I|]. cbn [find_key].
  pose proof A as (_ & _ & M & _). rewrite M. destruct (mem_tags ts (keys (c_map k2))); [split; [reflexivity|exact A]|]. apply IH.
Qed.
Lemma find_dflt_agree : forall N cs1 cs2, Forall2 (comp_agree N) cs1 cs2 -> forall i,
  match find_dflt i cs1, find_dflt i cs2 with
  | Some (a, k1), Some (b, k2) => a = b /\ comp_agree N k1 k2
  | None, None => True
  | _, _ => False
  end.
Proof.
  intros N cs1 cs2 H. induction H as [|k1 k2 cs1 cs2 A H IH]; intros i; [exact I|]. cbn [find_dflt].
  pose proof A as (_ & _ & M & _). rewrite M. destruct (dflt (c_map k2)); [split; [reflexivity|exact A]|]. apply IH.
Qed.
Lemma choose_agree : forall N cs1 cs2 ts, Forall2 (comp_agree N) cs1 cs2 ->
  (exists i k1 k2, choose cs1 ts = Ok (i, k1) /\ choose cs2 ts = Ok (i, k2) /\ comp_agree N k1 k2) \/
  (choose cs1 ts = Err /\ choose cs2 ts = Err) \/ (choose cs1 ts = Unm /\ choose cs2 ts = Unm).
Proof.
  intros N cs1 cs2 ts H. unfold choose. pose proof (find_key_agree _ _ _ H 0 ts) as K.
  destruct (find_key 0 cs1 ts) as [[a k1]|], (find_key 0 cs2 ts) as [[b k2]|]; try contradiction.
  - destruct K as [-> K]. left. eauto 10.
  - pose proof (find_dflt_agree _ _ _ H 0) as D.
    destruct (find_dflt 0 cs1) as [[a k1]|], (find_dflt 0 cs2) as [[b k2]|]; try contradiction; [|right; left; auto].
    destruct D as [-> D]. pose proof D as (_ & _ & _ & A & _). rewrite A. destruct (c_any k2); [left; eauto 10|right; right; auto].
Qed.
Lemma dec_run_agree : forall N cs1 cs2 s, Forall2 (comp_agree N) cs1 cs2 -> (List.length s <= N)%nat -> dec_run cs1 s = dec_run cs2 s.
Proof.
  intros N cs1 cs2 s H L. unfold dec_run. rewrite (agree_maps _ _ _ H). destruct (tok _); [|reflexivity].
  destruct (item _ s) as [[[[ts tlv] c] rest]| | |] eqn:I; try reflexivity. cbn [rbind]. apply descend_content in I.
  destruct (choose_agree N cs1 cs2 ts H) as [(i & k1 & k2 & -> & -> & A)|[[-> ->]|[-> ->]]]; try reflexivity.
  cbn [rbind]. destruct A as (_ & _ & _ & _ & V). rewrite V by lia. reflexivity.
Qed.
Lemma run_agree : forall N cs1 cs2, Forall2 (comp_agree N) cs1 cs2 -> Forall2 (comp_agree N) (run cs1) (run cs2).
Proof.
  intros N cs1 cs2 H. induction H as [|k1 k2 cs1 cs2 A H IH]; [constructor|]. cbn [run]. rewrite (agree_required _ _ _ A).
  destruct (required k2); constructor; auto.
Qed.
Lemma skipn_agree : forall N n cs1 cs2, Forall2 (comp_agree N) cs1 cs2 -> Forall2 (comp_agree N) (skipn n cs1) (skipn n cs2).
Proof. intros N n. induction n as [|n IH]; intros cs1 cs2 H; [exact H|]. destruct H; [constructor|]. cbn. auto. Qed.
Lemma absents_agree : forall N cs1 cs2, Forall2 (comp_agree N) cs1 cs2 -> map absent cs1 = map absent cs2.
Proof. intros N cs1 cs2 H. induction H as [|k1 k2 cs1 cs2 A H IH]; [reflexivity|]. cbn. rewrite (agree_absent _ _ _ A), IH. reflexivity. Qed.
Lemma firstn_agree : forall N n cs1 cs2, Forall2 (comp_agree N) cs1 cs2 -> Forall2 (comp_agree N) (firstn n cs1) (firstn n cs2).
Proof. intros N n. induction n as [|n IH]; intros cs1 cs2 H; [constructor|]. destruct H; [constructor|]. cbn. constructor; auto. Qed.
Lemma existsb_agree : forall N cs1 cs2, Forall2 (comp_agree N) cs1 cs2 -> existsb required cs1 = existsb required cs2.
Proof. intros N cs1 cs2 H. induction H as [|k1 k2 cs1 cs2 A H IH]; [reflexivity|]. cbn. rewrite (agree_required _ _ _ A), IH. reflexivity. Qed.
Lemma dec_seq_agree : forall N f cs1 cs2 s, Forall2 (comp_agree N) cs1 cs2 -> (List.length s <= N)%nat -> dec_seq f cs1 s = dec_seq f cs2 s.
Proof.
  intros N f. induction f as [|f IH]; intros cs1 cs2 s H L.
  - destruct s; [cbn [dec_seq]; rewrite (existsb_agree _ _ _ H), (absents_agree _ _ _ H); reflexivity|]. destruct H; reflexivity.
  - destruct s as [|b s]; [cbn [dec_seq]; rewrite (existsb_agree _ _ _ H), (absents_agree _ _ _ H); reflexivity|].
    pose proof H as H0. destruct H as [|k1 k2 cs1 cs2 A H]; [reflexivity|].
    change (dec_seq (S f) (k1 :: cs1) (b :: s)) with
      (if required k1 then let! (v, s') := dec_one k1 (b :: s) in let! r := dec_seq f cs1 s' in Ok (Some v :: r)
       else let! (i, v, s') := dec_run (run (k1 :: cs1)) (b :: s) in
            let! r := dec_seq f (skipn (S i) (k1 :: cs1)) s' in Ok (map absent (firstn i (k1 :: cs1)) ++ Some v :: r)).
    change (dec_seq (S f) (k2 :: cs2) (b :: s)) with
      (if required k2 then let! (v, s') := dec_one k2 (b :: s) in let! r := dec_seq f cs2 s' in Ok (Some v :: r)
       else let! (i, v, s') := dec_run (run (k2 :: cs2)) (b :: s) in
            let! r := dec_seq f (skipn (S i) (k2 :: cs2)) s' in Ok (map absent (firstn i (k2 :: cs2)) ++ Some v :: r)).
    rewrite (agree_required _ _ _ A). destruct (required k2).
    + rewrite (dec_one_agree N k1 k2 _ A L). destruct (dec_one k2 (b :: s)) as [[v r]| | |] eqn:D; try reflexivity. cbn [rbind].
      apply dec_one_shorter in D. rewrite (IH _ _ r H) by lia. reflexivity.
    + rewrite (dec_run_agree N _ _ _ (run_agree _ _ _ H0) L). destruct (dec_run _ (b :: s)) as [[[i v] r]| | |] eqn:D; try reflexivity. cbn [rbind].
      apply dec_run_shorter in D. rewrite (absents_agree _ _ _ (firstn_agree N i _ _ H0)).
      rewrite (IH _ _ r (skipn_agree N (S i) _ _ H0)) by lia. reflexivity.
Qed.
Lemma dec_set_agree : forall N f cs1 cs2 sl s, Forall2 (comp_agree N) cs1 cs2 -> (List.length s <= N)%nat -> dec_set f cs1 sl s = dec_set f cs2 sl s.
Proof.
  intros N f. induction f as [|f IH]; intros cs1 cs2 sl s H L; destruct s as [|b s]; try reflexivity. cbn [dec_set].
  rewrite (dec_run_agree N _ _ _ H L). destruct (dec_run cs2 (b :: s)) as [[[i v] r]| | |] eqn:D; try reflexivity. cbn [rbind].
  apply dec_run_shorter in D. apply IH; [exact H|lia].
Qed.
Lemma fill_agree : forall N cs1 cs2, Forall2 (comp_agree N) cs1 cs2 -> forall sl, fill cs1 sl = fill cs2 sl.
Proof.
  intros N cs1 cs2 H. induction H as [|k1 k2 cs1 cs2 A H IH]; intros [|o sl]; try reflexivity. cbn [fill].
  rewrite IH, (agree_required _ _ _ A), (agree_absent _ _ _ A). reflexivity.
Qed.
Lemma dec_list_agree : forall N f k1 k2 s, comp_agree N k1 k2 -> (List.length s <= N)%nat -> dec_list f k1 s = dec_list f k2 s.
Proof.
  intros N f. induction f as [|f IH]; intros k1 k2 s A L; destruct s as [|b s]; try reflexivity. cbn [dec_list].
  rewrite (dec_one_agree N k1 k2 _ A L). destruct (dec_one k2 (b :: s)) as [[v r]| | |] eqn:D; try reflexivity. cbn [rbind].
  apply dec_one_shorter in D. rewrite (IH _ _ r A) by lia. reflexivity.
Qed.

(** ** Octets inside decoded components are short *)

Definition octs_small (M : nat) (v : aval) : Prop := match v with VOcts b => (List.length b <= M)%nat | _ => True end.
Definition small (M : nat) (v : aval) : Prop :=
  octs_small M v /\ match v with VList l => Forall (octs_small M) l | _ => True end.
Lemma segments_short : forall f n s l, segments f n s = Ok l -> (List.length (List.concat l) <= List.length s)%nat.
Proof.
  induction f as [|f IH]; intros n s l H; destruct s as [|b s]; cbn [segments] in H; try discriminate H; try (injection H as <-; cbn; lia).
  destruct (dec_header (b :: s)) as [[[g c] rest]|] eqn:D; [|discriminate H]. destruct (_ || _); [|discriminate H].
  apply rbind_ok in H. destruct H as (r & K & H). injection H as <-. apply IH in K. apply dec_header_inv in D. destruct D as (h & E & _).
  rewrite E. cbn [List.concat]. rewrite !app_length. lia.
Qed.
Lemma dec_val_small : forall O t M ts tlv c v, dec_val O t ts tlv c = Ok v ->
  (List.length tlv <= M)%nat -> (List.length c <= M)%nat -> small M v.
Proof.
  intros O t. induction t as [k m|s m fs IH|s m t IH|s m|m fs IH] using asn1_ind2; intros M ts tlv c v H LT LC.
  - cbn [dec_val] in H. apply rbind_ok in H. destruct H as (w & D & H). destruct (csat [] (spec m) w); [|discriminate].
    assert (w = v) by congruence. subst w. clear H.
    destruct v; try (split; exact I); [|exfalso; destruct k; cbn [dec_prim] in D; repeat match type of D with
      | (if ?b then _ else _) = _ => destruct b | (match ?x with _ => _ end) = _ => destruct x | rbind _ _ = _ => apply rbind_ok in D; destruct D as (? & _ & D) end; discriminate].
    split; [|exact I]. cbn [octs_small].
    destruct k; cbn [dec_prim] in D; try (exfalso; repeat match type of D with
      | (if ?b then _ else _) = _ => destruct b | (match ?x with _ => _ end) = _ => destruct x | rbind _ _ = _ => apply rbind_ok in D; destruct D as (? & _ & D) end; discriminate).
    + destruct (simple ts); [inversion D; subst; exact LC|]. destruct lax; [|discriminate D]. apply rbind_ok in D. destruct D as (l & K & D). injection D as <-.
      apply segments_short in K. lia.
    + inversion D; subst. destruct (tags_eqb ts (tags m)); assumption.
  - assert (exists vs, v = VSeq vs) as [vs ->]; [|split; exact I]. destruct (decoded_complete _ _ _ _ _ _ _ _ H) as (vs & -> & _). eauto.
  - cbn [dec_val] in H. destruct (constructed ts); [|discriminate]. apply rbind_ok in H. destruct H as (l & D & H).
    assert (v = VList l) by congruence. subst v. split; [exact I|].
    assert (K : forall f k s l, c_val k = dec_val O t -> (List.length s <= M)%nat -> dec_list f k s = Ok l -> Forall (octs_small M) l).
    { clear - IH. induction f as [|f IHf]; intros k s l E L H; destruct s as [|b s]; try discriminate.
      - cbn in H. assert (l = []) by congruence. subst. constructor.
      - cbn in H. assert (l = []) by congruence. subst. constructor.
      - cbn [dec_list] in H. apply rbind_ok in H. destruct H as ([v r] & A & H). apply rbind_ok in H. destruct H as (l' & B & H).
        assert (l = v :: l') by congruence. subst l. pose proof (dec_one_shorter _ _ _ _ A) as SH. constructor; [|refine (IHf _ _ _ E _ B); lia].
        unfold dec_one in A. destruct (tok _); [|discriminate]. apply rbind_ok in A. destruct A as ([[[ts tlv] c] rest] & I1 & A).
        apply rbind_ok in A. destruct A as (w & V & A). assert (w = v) by congruence. subst w. apply descend_content in I1. rewrite E in V.
        refine (proj1 (IH M _ _ _ _ V _ _)); lia. }
    refine (K _ _ _ _ _ LC D). reflexivity.
  - cbn [dec_val] in H. destruct (constructed ts); [|discriminate]. destruct c; [|discriminate].
    assert (v = VList []) by congruence. subst. split; [exact I|constructor].
  - assert (exists i w, v = VAlt i w) as (i & w & ->); [|split; exact I].
    rewrite dec_choice_val in H. cbv zeta in H. destruct (tags_eqb ts (tags m)).
    + apply rbind_ok in H. destruct H as ([[i w] r] & _ & H). exists i, w. congruence.
    + apply rbind_ok in H. destruct H as ([i k] & _ & H). apply rbind_ok in H. destruct H as (w & _ & H). exists i, w. congruence.
Qed.

(** Slots filled from the input are short; the others hold defaults. *)
Definition slot_small (M : nat) (k : comp) (o : option aval) : Prop :=
  match o with Some v => small M v \/ (c_pres k = Def /\ c_def k = Some v) | None => True end.
Definition val_small (M : nat) (k : comp) : Prop := forall ts tlv c v, c_val k ts tlv c = Ok v ->
  (List.length tlv <= M)%nat -> (List.length c <= M)%nat -> small M v.
Lemma dec_one_small : forall M k s v r, val_small M k -> (List.length s <= M)%nat -> dec_one k s = Ok (v, r) -> small M v.
Proof.
  intros M k s v r VS L A. unfold dec_one in A. destruct (tok _); [|discriminate]. apply rbind_ok in A. destruct A as ([[[ts tlv] c] rest] & I1 & A).
  apply rbind_ok in A. destruct A as (w & V & A). assert (w = v) by congruence. subst w. apply descend_content in I1.
  refine (VS _ _ _ _ V _ _); lia.
Qed.
Lemma dec_run_small : forall M cs s i v r, Forall (val_small M) cs -> (List.length s <= M)%nat -> dec_run cs s = Ok (i, v, r) -> small M v.
Proof.
  intros M cs s i v r VS L A. unfold dec_run in A. destruct (tok _); [|discriminate]. apply rbind_ok in A. destruct A as ([[[ts tlv] c] rest] & I1 & A).
  apply rbind_ok in A. destruct A as ([j k] & CH & A). apply rbind_ok in A. destruct A as (w & V & A).
  assert (w = v) by congruence. subst w. apply descend_content in I1. apply choose_in in CH. apply nth_error_In in CH.
  rewrite Forall_forall in VS. refine (VS _ CH _ _ _ _ V _ _); lia.
Qed.
Lemma absent_small : forall M k, slot_small M k (absent k).
Proof. intros M k. unfold absent, slot_small. destruct (c_pres k) eqn:P; try exact I. destruct (c_def k) eqn:D; [right; auto|exact I]. Qed.
Lemma absents_small : forall M cs, Forall2 (slot_small M) cs (map absent cs).
Proof. intros M cs. induction cs; constructor; [apply absent_small|assumption]. Qed.
Lemma run_forall : forall (P : comp -> Prop) cs, Forall P cs -> Forall P (run cs).
Proof. intros P cs H. induction H as [|c cs A H IH]; [constructor|]. cbn. destruct (required c); constructor; auto. Qed.
Lemma skipn_S_app : forall {A} (l1 : list A) c l2, skipn (S (List.length l1)) (l1 ++ c :: l2) = l2.
Proof. intros A l1 c l2. induction l1 as [|x l1 IH]; [reflexivity|exact IH]. Qed.
Lemma dec_seq_small : forall M f cs s vs, Forall (val_small M) cs -> (List.length s <= M)%nat -> dec_seq f cs s = Ok vs -> Forall2 (slot_small M) cs vs.
Proof.
  intros M f. induction f as [|f IH]; intros cs s vs VS L H.
  - destruct s as [|b s].
    + cbn in H. destruct (existsb required cs) eqn:E; [discriminate|]. assert (vs = map absent cs) by congruence. subst. apply absents_small.
    + destruct cs; discriminate.
  - destruct s as [|b s].
    + cbn in H. destruct (existsb required cs) eqn:E; [discriminate|]. assert (vs = map absent cs) by congruence. subst. apply absents_small.
    + destruct cs as [|c cs]; [discriminate|].
      change (dec_seq (S f) (c :: cs) (b :: s)) with
        (if required c then let! (v, s') := dec_one c (b :: s) in let! r := dec_seq f cs s' in Ok (Some v :: r)
         else let! (i, v, s') := dec_run (run (c :: cs)) (b :: s) in
              let! r := dec_seq f (skipn (S i) (c :: cs)) s' in Ok (map absent (firstn i (c :: cs)) ++ Some v :: r)) in H.
      destruct (required c) eqn:R.
      * apply rbind_ok in H. destruct H as ([v s'] & DO & H). apply rbind_ok in H. destruct H as (r & D & H).
        assert (vs = Some v :: r) by congruence. subst. inversion VS as [|? ? V1 V2]; subst. pose proof (dec_one_shorter _ _ _ _ DO) as SH.
        constructor; [left; exact (dec_one_small _ _ _ _ _ V1 L DO)|refine (IH _ _ _ V2 _ D); lia].
      * apply rbind_ok in H. destruct H as ([[i v] s'] & DR & H). apply rbind_ok in H. destruct H as (r & D & H).
        assert (vs = map absent (firstn i (c :: cs)) ++ Some v :: r) by congruence. subst vs.
        pose proof (dec_run_small _ _ _ _ _ _ (run_forall _ _ VS) L DR) as SM. pose proof (dec_run_shorter _ _ _ _ _ DR) as SH.
        apply dec_run_pos in DR. destruct (run_prefix _ _ DR) as (A & c' & N). clear DR H.
        set (l := c :: cs) in *. clearbody l.
        destruct (nth_error_split _ _ N) as (l1 & l2 & -> & L1). clear N. subst i.
        rewrite firstn_app, Nat.sub_diag, firstn_all in *. cbn [firstn] in *. rewrite app_nil_r in *.
        apply Forall2_app; [apply absents_small|]. constructor; [left; exact SM|].
        rewrite skipn_S_app in D. apply Forall_app in VS. destruct VS as [_ VS]. inversion VS as [|? ? V1 V2]; subst.
        refine (IH _ _ _ V2 _ D); lia.
Qed.
Lemma set_nth_forall : forall {A} (P : A -> Prop) l i x, Forall P l -> P x -> Forall P (set_nth i x l).
Proof. intros A P l i x H. revert i. induction H as [|y l Y H IH]; intros [|i] X; cbn; constructor; auto. Qed.
Definition opt_small (M : nat) (o : option aval) : Prop := match o with Some v => small M v | None => True end.
Lemma dec_set_small : forall M f cs sl s sl', Forall (val_small M) cs -> (List.length s <= M)%nat -> Forall (opt_small M) sl ->
  dec_set f cs sl s = Ok sl' -> Forall (opt_small M) sl'.
Proof.
  intros M f. induction f as [|f IH]; intros cs sl s sl' VS L S0 H; destruct s as [|b s]; try discriminate.
  - cbn in H. assert (sl = sl') by congruence. subst. exact S0.
  - cbn in H. assert (sl = sl') by congruence. subst. exact S0.
  - cbn [dec_set] in H. apply rbind_ok in H. destruct H as ([[i v] r] & DR & H).
    pose proof (dec_run_small _ _ _ _ _ _ VS L DR) as SM. apply dec_run_shorter in DR.
    refine (IH _ _ _ _ VS _ (set_nth_forall _ _ _ (Some v) S0 SM) H); lia.
Qed.
Lemma fill_small : forall M cs sl vs, Forall (opt_small M) sl -> fill cs sl = Ok vs -> Forall2 (slot_small M) cs vs.
Proof.
  intros M. induction cs as [|c cs IH]; intros [|o sl] vs S0 H; try discriminate.
  - cbn in H. assert (vs = []) by congruence. subst. constructor.
  - cbn [fill] in H. apply rbind_ok in H. destruct H as (r & D & H). inversion S0 as [|? ? S1 S2]; subst. destruct o as [v|].
    + assert (vs = Some v :: r) by congruence. subst. constructor; [left; exact S1|exact (IH _ _ S2 D)].
    + destruct (required c); [discriminate|]. assert (vs = absent c :: r) by congruence. subst.
      constructor; [apply absent_small|exact (IH _ _ S2 D)].
Qed.

(** ** Openers that agree on short octets *)

(** No component is open. *)
Definition closed (t : asn1) : bool :=
  match t with TSeq _ _ fs => forallb (fun f => negb (is_some (fopen f))) fs | _ => true end.
(** Open components have no defaults, and SETs hold none at any depth. *)
Definition open_plain (t : asn1) : bool :=
  match t with
  | TSeq s _ fs => forallb (fun f => negb (is_some (fopen f)) || match fpres f with Def => false | _ => true end) fs
                   && (if s then everywhere closed t else true)
  | _ => true
  end.

Definition opener_agree (N : nat) (O1 O2 : opener) : Prop := forall d k,
  match O1 d k, O2 d k with
  | None, None => True
  | Some f, Some g => forall b, (List.length b <= N)%nat -> f b = g b
  | _, _ => False
  end.

Lemma reopen_agree : forall N f g v, (forall b, (List.length b <= N)%nat -> f b = g b) -> octs_small N v -> reopen f v = reopen g v.
Proof. intros N f g v H S0. destruct v; try reflexivity. exact (H _ S0). Qed.
Lemma open_slot_agree : forall N O1 O2 fs vs f o, opener_agree N O1 O2 -> match o with Some v => fopen f <> None -> small N v | None => True end ->
  open_slot O1 fs vs f o = open_slot O2 fs vs f o.
Proof.
  intros N O1 O2 fs vs f o A H. unfold open_slot. destruct (fopen f) as [[n d]|]; [|reflexivity]. destruct o as [v|]; [|reflexivity].
  specialize (H ltac:(discriminate)). destruct (gov_key (slot_of fs vs n)) as [k|]; [|reflexivity].
  specialize (A d k). destruct (O1 d k) as [g1|], (O2 d k) as [g2|]; try contradiction; [|reflexivity].
  destruct H as [H1 H2]. destruct v as [| | | | | | | |l| |]; try (rewrite (reopen_agree N g1 g2 _ A H1); reflexivity).
  assert (E : rmap (reopen g1) l = rmap (reopen g2) l); [|rewrite E; reflexivity].
  induction H2 as [|x l X H2 IH]; [reflexivity|]. cbn [rmap]. rewrite (reopen_agree N g1 g2 x A X), (IH I). reflexivity.
Qed.
Lemma open_slots_agree : forall N O1 O2 fs0 vs0 O fs vs, opener_agree N O1 O2 ->
  forallb (fun f => negb (is_some (fopen f)) || match fpres f with Def => false | _ => true end) fs = true ->
  Forall2 (slot_small N) (map (fcomp O) fs) vs -> open_slots O1 fs0 vs0 fs vs = open_slots O2 fs0 vs0 fs vs.
Proof.
  intros N O1 O2 fs0 vs0 O fs. induction fs as [|f fs IH]; intros vs A P H; inversion H as [|? o ? vs' H1 H2]; subst; [reflexivity|].
  cbn [forallb] in P. apply andb_true_iff in P. destruct P as [P1 P2]. cbn [open_slots].
  rewrite (IH _ A P2 H2). rewrite (open_slot_agree N O1 O2 fs0 vs0 f o A); [reflexivity|].
  destruct o as [v|]; [|exact I]. intro OP. cbn [slot_small] in H1. destruct H1 as [H1|[H1 _]]; [exact H1|]. exfalso.
  cbn [fcomp c_pres] in H1. rewrite H1 in P1. destruct (fopen f); [discriminate|congruence].
Qed.

Lemma dec_val_agree : forall N O1 O2, opener_agree N O1 O2 -> forall t, everywhere open_plain t = true -> forall ts tlv c,
  (List.length c <= N)%nat -> dec_val (Some O1) t ts tlv c = dec_val (Some O2) t ts tlv c.
Proof.
  intros N O1 O2 A t. induction t as [k m|s m fs IH|s m t IH|s m|m fs IH] using asn1_ind2; intros OP ts tlv c L.
  - reflexivity.
  - cbn [everywhere] in OP. rewrite everywhere_go in OP. apply andb_true_iff in OP. destruct OP as [OP EV].
    cbn [open_plain] in OP. apply andb_true_iff in OP. destruct OP as [OP _]. rewrite !dec_seq_val. destruct (constructed ts); [|reflexivity].
    assert (CA : Forall2 (comp_agree N) (map (fcomp (Some O1)) fs) (map (fcomp (Some O2)) fs)).
    { unfold everywhere_all in EV. clear OP. induction fs as [|f fs IHf]; [constructor|]. inversion IH as [|? ? I1 I2]; subst.
      cbn [forallb] in EV. apply andb_true_iff in EV. destruct EV as [E1 E2]. cbn [map]. constructor; [|exact (IHf I2 E2)].
      repeat split. intros ts' tlv' c' L'. exact (I1 E1 ts' tlv' c' L'). }
    assert (G : (let cs := map (fcomp (Some O1)) fs in
        let! vs := if s then let! sl := dec_set (List.length c) cs (map (fun _ => None) cs) c in fill cs sl
                   else dec_seq (List.length cs) cs c in
        if existsb (fun f => is_some (fopen f)) fs then let! vs' := open_slots O1 fs vs fs vs in Ok (VSeq vs')
        else if ctruthy (spec m) && negb (csat (fnames fs) (spec m) (VSeq vs)) then Err else Ok (VSeq vs))
      = (let cs := map (fcomp (Some O2)) fs in
        let! vs := if s then let! sl := dec_set (List.length c) cs (map (fun _ => None) cs) c in fill cs sl
                   else dec_seq (List.length cs) cs c in
        if existsb (fun f => is_some (fopen f)) fs then let! vs' := open_slots O2 fs vs fs vs in Ok (VSeq vs')
        else if ctruthy (spec m) && negb (csat (fnames fs) (spec m) (VSeq vs)) then Err else Ok (VSeq vs))).
    { cbv zeta.
      assert (E : (if s then let! sl := dec_set (List.length c) (map (fcomp (Some O1)) fs) (map (fun _ => None) (map (fcomp (Some O1)) fs)) c in fill (map (fcomp (Some O1)) fs) sl
                   else dec_seq (List.length (map (fcomp (Some O1)) fs)) (map (fcomp (Some O1)) fs) c)
                = (if s then let! sl := dec_set (List.length c) (map (fcomp (Some O2)) fs) (map (fun _ => None) (map (fcomp (Some O2)) fs)) c in fill (map (fcomp (Some O2)) fs) sl
                   else dec_seq (List.length (map (fcomp (Some O2)) fs)) (map (fcomp (Some O2)) fs) c)).
      { destruct s.
        - rewrite (dec_set_agree N _ _ _ _ c CA L). rewrite !map_map.
          destruct (dec_set _ _ _ c) as [sl| | |]; try reflexivity. cbn [rbind]. apply (fill_agree _ _ _ CA).
        - rewrite !map_length. apply (dec_seq_agree N _ _ _ c CA L). }
      rewrite E. clear E.
      destruct (if s then _ else _) as [vs| | |] eqn:D; try reflexivity. cbn [rbind].
      destruct (existsb (fun f => is_some (fopen f)) fs); [|reflexivity].
      assert (SM : Forall2 (slot_small N) (map (fcomp (Some O2)) fs) vs).
      { assert (VS : Forall (val_small N) (map (fcomp (Some O2)) fs)).
        { apply Forall_forall. intros k I. apply in_map_iff in I. destruct I as (f & <- & _).
          intros ts' tlv' c' v' H1 H2 H3. exact (dec_val_small _ _ N _ _ _ _ H1 H2 H3). }
        destruct s.
        - apply rbind_ok in D. destruct D as (sl & D1 & D2). refine (fill_small _ _ _ _ _ D2). refine (dec_set_small _ _ _ _ _ _ VS L _ D1).
          apply Forall_forall. intros o I. apply in_map_iff in I. destruct I as (k & <- & _). exact Logic.I.
        - exact (dec_seq_small _ _ _ _ _ VS L D). }
      rewrite (open_slots_agree N O1 O2 fs vs (Some O2) fs vs A OP SM). reflexivity. }
    destruct fs as [|f fs]; [destruct c; [exact G|reflexivity]|exact G].
  - cbn [everywhere] in OP. apply andb_true_iff in OP. destruct OP as [_ OP]. cbn [dec_val]. destruct (constructed ts); [|reflexivity].
    rewrite (dec_list_agree N _ _ (mkC Req None (tag_map t) (is_any t) (dec_val (Some O2) t)) c); [reflexivity| |exact L].
    repeat split. intros ts' tlv' c' L'. exact (IH OP ts' tlv' c' L').
  - reflexivity.
  - cbn [everywhere] in OP. rewrite everywhere_go in OP. apply andb_true_iff in OP. destruct OP as [_ EV].
    assert (CA : Forall2 (comp_agree N) (map (fcomp (Some O1)) fs) (map (fcomp (Some O2)) fs)).
    { unfold everywhere_all in EV. induction fs as [|f fs IHf]; [constructor|]. inversion IH as [|? ? I1 I2]; subst.
      cbn [forallb] in EV. apply andb_true_iff in EV. destruct EV as [E1 E2]. cbn [map]. constructor; [|exact (IHf I2 E2)].
      repeat split. intros ts' tlv' c' L'. exact (I1 E1 ts' tlv' c' L'). }
    rewrite !dec_choice_val. cbv zeta. destruct (tags_eqb ts (tags m)).
    + rewrite (dec_run_agree N _ _ c CA L). reflexivity.
    + destruct (choose_agree N _ _ ts CA) as [(i & k1 & k2 & -> & -> & (_ & _ & _ & _ & V))|[[-> ->]|[-> ->]]]; try reflexivity.
      cbn [rbind]. rewrite (V ts c c L). reflexivity.
Qed.

Lemma decode_agree : forall N O1 O2 t s, opener_agree N O1 O2 -> everywhere open_plain t = true -> (List.length s <= N + 2)%nat ->
  decode_with (Some O1) t s = decode_with (Some O2) t s.
Proof.
  intros N O1 O2 t s A OP L. unfold decode_with, dec_one. cbn [comp_of c_map c_val]. destruct (tok (tag_map t)); [|reflexivity].
  destruct (item _ s) as [[[[ts tlv] c] rest]| | |] eqn:I; try reflexivity. cbn [rbind]. apply descend_content in I.
  rewrite (dec_val_agree N O1 O2 A t OP ts tlv c) by lia. reflexivity.
Qed.

(** ** The bound of [opener_of] *)

Section bound.
  Variable R : registry.
  Hypothesis RP : forall d k t, R d k = Some t -> everywhere open_plain t = true.

  Lemma opener_enough : forall N n m, (N < n)%nat -> (N < m)%nat -> opener_agree N (opener_of R n) (opener_of R m).
  Proof.
    intro N. induction N as [N IH] using lt_wf_ind. intros [|n] [|m] Hn Hm; try lia. intros d k. cbn [opener_of].
    destruct (R d k) as [t|] eqn:E; [|exact I]. intros b L.
    destruct (Nat.le_gt_cases N 1) as [S0|S0].
    - assert (Z : forall O, decode_with O t b = Err \/ forall O', decode_with O' t b = decode_with O t b).
      { intro O. left. unfold decode_with, dec_one. destruct (tok _); [|reflexivity].
        destruct (item _ b) as [[[[ts tlv] c] rest]| | |] eqn:D; try reflexivity; [apply descend_content in D; lia| |].
        - exfalso. unfold item in D. revert D. generalize (@nil tag). generalize (List.length b). intro f. generalize b. clear.
          induction f as [|f IH]; intros b l D; [discriminate|]. cbn [descend] in D. destruct (dec_header b) as [[[g c] r]|]; [|discriminate].
          destruct (accepts _ (g :: l)); [discriminate|]. destruct (_ && _); [|discriminate].
          destruct (descend f _ (g :: l) c) as [[[[? ?] ?] ?]| | |] eqn:D2; try discriminate. exact (IH _ _ D2).
        - exfalso. unfold item in D. revert D. generalize (@nil tag). generalize (List.length b). intro f. generalize b. clear.
          induction f as [|f IH]; intros b l D; [discriminate|]. cbn [descend] in D. destruct (dec_header b) as [[[g c] r]|]; [|discriminate].
          destruct (accepts _ (g :: l)); [discriminate|]. destruct (_ && _); [|discriminate].
          destruct (descend f _ (g :: l) c) as [[[[? ?] ?] ?]| | |] eqn:D2; try discriminate. exact (IH _ _ D2). }
      destruct (Z (Some (opener_of R n))) as [Z1|Z1]; [|rewrite (Z1 (Some (opener_of R m))); reflexivity].
      destruct (Z (Some (opener_of R m))) as [Z2|Z2]; [|rewrite <- Z2 with (O' := Some (opener_of R n)); reflexivity].
      rewrite Z1, Z2. reflexivity.
    - assert (A : opener_agree (N - 2) (opener_of R n) (opener_of R m)) by (apply IH; lia).
      rewrite (decode_agree (N - 2) _ _ t b A (RP _ _ _ E)) by lia. reflexivity.
  Qed.

  (** decode(octets, asn1Spec=t, decodeOpenTypes=True) *)
  Definition decode_open (t : asn1) (s : bytes) : res (aval * bytes) := decode_with (Some (opener_of R (S (List.length s)))) t s.

  Theorem decode_open_enough : forall t s n, everywhere open_plain t = true -> (List.length s < n)%nat ->
    decode_with (Some (opener_of R n)) t s = decode_open t s.
  Proof.
    intros t s n OP L. unfold decode_open. apply (decode_agree (List.length s)); [apply opener_enough; lia|exact OP|lia].
  Qed.
End bound.

(** ** Deeper conformance *)

Definition opened_le (C1 C2 : opened) : Prop := forall d k,
  match C1 d k, C2 d k with
  | None, None => True
  | Some f, Some g => forall x, f x = true -> g x = true
  | _, _ => False
  end.
Lemma conf_mono : forall C1 C2, opened_le C1 C2 -> forall t v, conf (Some C1) t v = true -> conf (Some C2) t v = true.
Proof.
  intros C1 C2 LE t. induction t as [k m|s m fs IH|s m t IH|s m|m fs IH] using asn1_ind2; intros v H.
  - exact H.
  - destruct v as [| | | | | | |vs| | |]; try discriminate. rewrite conf_seq in *. apply andb_true_iff in H. destruct H as [H1 H2].
    rewrite H1. cbn [andb]. clear H1. revert H2. generalize fs at 1 3. generalize vs at 1 3. intros vs0 fs0. revert vs.
    induction fs as [|f fs IHf]; intros [|w vs] H; try discriminate; [reflexivity|]. cbn [conf_slots] in *.
    inversion IH as [|? ? I1 I2]; subst. apply andb_true_iff in H. destruct H as [H1 H2]. rewrite (IHf I2 _ H2), andb_true_r.
    unfold conf_slot in *. destruct w as [x|]; [|exact H1]. apply orb_true_iff in H1. apply orb_true_iff.
    destruct H1 as [H1|H1]; [left; exact H1|right]. apply andb_true_iff in H1. destruct H1 as [H1 HD]. apply andb_true_iff in H1. destruct H1 as [H1 HO].
    rewrite HD, HO, !andb_true_r. unfold entry_for in *. destruct (fopen f) as [[n d]|]; [|exact (I1 _ H1)].
    destruct (gov_key (slot_of fs0 vs0 n)) as [k|]; [|discriminate]. specialize (LE d k).
    destruct (C1 d k) as [t1|], (C2 d k) as [t2|]; try contradiction; [|exact (I1 _ H1)].
    apply andb_true_iff in H1. destruct H1 as [H1 HR]. apply andb_true_iff in H1. destruct H1 as [HA HC].
    rewrite HR, (I1 _ HC), !andb_true_r. unfold all_opened in *. destruct x; try exact (LE _ HA).
    apply forallb_forall. intros y Y. exact (LE _ (proj1 (forallb_forall _ _) HA y Y)).
  - cbn [conf] in *. destruct v; try discriminate. apply andb_true_iff in H. destruct H as [H H3]. apply andb_true_iff in H. destruct H as [H1 H2].
    rewrite H1, H3. rewrite andb_true_r. cbn [andb]. apply forallb_forall. intros y Y. exact (IH _ (proj1 (forallb_forall _ _) H2 y Y)).
  - destruct v; discriminate.
  - destruct v; try discriminate. rewrite conf_choice in *. destruct (nth_error fs i) as [f|] eqn:N; [|discriminate].
    rewrite Forall_forall in IH. exact (IH f (nth_error_In _ _ N) _ H).
Qed.
Lemma opened_deeper : forall R n m, (n <= m)%nat -> opened_le (opened_of R n) (opened_of R m).
Proof.
  intros R n. induction n as [|n IH]; intros m L d k; destruct m as [|m]; try lia; cbn [opened_of]; destruct (R d k) as [t|]; try exact I.
  - intros x H. exact H.
  - intros x H. discriminate.
  - intros x H. destruct x as [| | | | | | | | | |t' [y|]]; try discriminate. apply andb_true_iff in H. destruct H as [H1 H2].
    rewrite H1. cbn [andb]. refine (conf_mono _ _ (IH m _) _ _ H2); lia.
Qed.

(** Values of type [t] in which open components hold values of the registered types, to
    any depth. *)
Definition conf_open (R : registry) (t : asn1) (v : aval) : Prop := exists n, conf (Some (opened_of R n)) t v = true.

Theorem decode_open_round_trip : forall R, (forall d k t, R d k = Some t -> everywhere open_plain t = true) ->
  forall t v bs rest, wf t = true -> everywhere open_plain t = true -> conf_open R t v -> encode t v = Ok bs ->
  decode_open R t (bs ++ rest) = Ok (v, rest).
Proof.
  intros R RP t v bs rest WF OP (n & C) E.
  set (k := Nat.max n (S (List.length (bs ++ rest)))).
  rewrite <- (decode_open_enough R RP t (bs ++ rest) k OP) by (unfold k; lia).
  apply open_round_trip; [exact WF| |exact E].
  exact (conf_mono _ _ (opened_deeper R n k ltac:(unfold k; lia)) t v C).
Qed.

End codec.
