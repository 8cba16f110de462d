(** How deep decoded values nest. *)
From Coq Require Import List String ZArith NArith Bool Lia.
From Verif Require Import Asn1.Types Py.Eval Asn1.EqbFacts Asn1.Bytes Asn1.Charset Asn1.Der Asn1.Wf Asn1.RoundTrip Asn1.RoundTrip2
  Asn1.Open Asn1.Total Asn1.Inside Asn1.OpenDepth.
Import ListNotations.
Open Scope string_scope.
Open Scope list_scope.
Open Scope nat_scope.

(** Constructed values on the longest path from a value to one of its leaves. *)
Fixpoint levels (v : aval) : nat :=
  match v with
  | VSeq vs => S ((fix go (l : list (option aval)) : nat :=
                     match l with [] => 0 | Some x :: l' => Nat.max (levels x) (go l') | None :: l' => go l' end) vs)
  | VList vs => S ((fix go (l : list aval) : nat := match l with [] => 0 | x :: l' => Nat.max (levels x) (go l') end) vs)
  | VAlt _ x => S (levels x)
  | VTyped _ (Some x) => levels x
  | _ => 0
  end.
(** The same for the types, with the defaults of their components. *)
Definition opt_levels (o : option aval) : nat := match o with Some v => levels v | None => 0 end.
Fixpoint height (t : asn1) : nat :=
  match t with
  | TPrim _ _ => 0
  | TSeq _ _ fs | TChoice _ fs =>
      S ((fix go (fs : list field) : nat :=
            match fs with [] => 0 | Fld _ _ t' d _ :: fs' => Nat.max (Nat.max (height t') (opt_levels d)) (go fs') end) fs)
  | TOf _ _ (Some t') => S (height t')
  | TOf _ _ None => 1
  end.
Definition slots_levels (l : list (option aval)) : nat := fold_right (fun o n => Nat.max (opt_levels o) n) 0 l.
Definition list_levels (l : list aval) : nat := fold_right (fun x n => Nat.max (levels x) n) 0 l.
Definition fields_height (fs : list field) : nat := fold_right (fun f n => Nat.max (Nat.max (height (ftype f)) (opt_levels (fdef f))) n) 0 fs.
Lemma levels_seq : forall vs, levels (VSeq vs) = S (slots_levels vs).
Proof. intro vs. cbn [levels]. f_equal. induction vs as [|[x|] vs IH]; [reflexivity| |exact IH]. rewrite IH. reflexivity. Qed.
Lemma levels_list : forall vs, levels (VList vs) = S (list_levels vs).
Proof. reflexivity. Qed.
Lemma height_seq : forall s m fs, height (TSeq s m fs) = S (fields_height fs).
Proof. intros s m fs. cbn [height]. f_equal. induction fs as [|[n p t d o] fs IH]; [reflexivity|]. rewrite IH. reflexivity. Qed.
Lemma height_choice : forall m fs, height (TChoice m fs) = S (fields_height fs).
Proof. intros m fs. exact (height_seq false m fs). Qed.
Lemma fields_height_in : forall fs f, In f fs -> height (ftype f) <= fields_height fs /\ opt_levels (fdef f) <= fields_height fs.
Proof.
  intros fs f I. induction fs as [|g fs IH]; [contradiction I|]. cbn [fields_height fold_right]. fold (fields_height fs).
  destruct I as [->|I]; [lia|]. specialize (IH I). lia.
Qed.

Section codec.
Context {Cdc : codec}.

Section below.
  (** Whatever is opened nests at most [D] deep. *)
  Variable O : option opener.
  Variable D : nat.
  Hypothesis OD : forall Op, O = Some Op -> forall d k f b w, Op d k = Some f -> f b = Ok w -> levels w <= D /\ match w with VList _ => False | _ => True end.

  (** [below N v]: at most [N + D] deep; only with [1 <= N] a list. *)
  Definition below (N : nat) (v : aval) : Prop := levels v <= N + D /\ match v with VList _ => 1 <= N | _ => True end.
  Definition obelow (N : nat) (o : option aval) : Prop := match o with Some v => below N v | None => True end.
  Lemma below_le : forall N M v, N <= M -> below N v -> below M v.
  Proof. intros N M v L [A B]. split; [lia|]. destruct v; auto. lia. Qed.
  Lemma below_self : forall N v, levels v <= N -> below N v.
  Proof. intros N v L. split; [lia|]. destruct v; auto. rewrite levels_list in L. lia. Qed.

  Definition comp_below (N : nat) (k : comp) : Prop :=
    (forall ts tlv c v, c_val k ts tlv c = Ok v -> below N v) /\ obelow N (c_def k).

  Lemma one_below : forall N k s v r, comp_below N k -> dec_one k s = Ok (v, r) -> below N v.
  Proof.
    intros N k s v r [H _] A. unfold dec_one in A. destruct (tok _); [|discriminate A]. apply rbind_ok in A. destruct A as ([[[ts tlv] c] rest] & _ & A).
    apply rbind_ok in A. destruct A as (w & V & A). assert (w = v) by congruence. subst w. exact (H _ _ _ _ V).
  Qed.
  Lemma run_below : forall N cs s i v r, Forall (comp_below N) cs -> dec_run cs s = Ok (i, v, r) -> below N v.
  Proof.
    intros N cs s i v r H A. unfold dec_run in A. destruct (tok _); [|discriminate A]. apply rbind_ok in A. destruct A as ([[[ts tlv] c] rest] & _ & A).
    apply rbind_ok in A. destruct A as ([j k] & CH & A). apply rbind_ok in A. destruct A as (w & V & A).
    assert (w = v) by congruence. subst w. apply choose_in in CH. apply nth_error_In in CH. rewrite Forall_forall in H. exact (proj1 (H _ CH) _ _ _ _ V).
  Qed.
  Lemma absents_below : forall N cs, Forall (comp_below N) cs -> Forall (obelow N) (map absent cs).
  Proof. intros N cs H. induction H as [|k cs [_ A] H IH]; cbn [map]; constructor; [|exact IH]. unfold absent. destruct (c_pres k); try exact I. exact A. Qed.
  Lemma seq_below : forall N f cs s vs, Forall (comp_below N) cs -> dec_seq f cs s = Ok vs -> Forall (obelow N) vs.
  Proof.
    intros N f. induction f as [|f IH]; intros cs s vs H E; destruct s as [|b s].
    - cbn in E. destruct (existsb required cs); [discriminate E|]. injection E as <-. exact (absents_below _ _ H).
    - destruct cs; discriminate E.
    - cbn in E. destruct (existsb required cs); [discriminate E|]. injection E as <-. exact (absents_below _ _ H).
    - destruct cs as [|c cs]; [discriminate E|].
      change (dec_seq (S f) (c :: cs) (b :: s)) with
        (if required c then let! (v, s') := dec_one c (b :: s) in let! r := dec_seq f cs s' in Ok (Some v :: r)
         else let! (i, v, s') := dec_run (run (c :: cs)) (b :: s) in
              let! r := dec_seq f (skipn (S i) (c :: cs)) s' in Ok (map absent (firstn i (c :: cs)) ++ Some v :: r)) in E.
      destruct (required c).
      + apply rbind_ok in E. destruct E as ([v s'] & A & E). apply rbind_ok in E. destruct E as (r & B & E). injection E as <-.
        inversion H as [|? ? H1 H2]; subst. constructor; [exact (one_below _ _ _ _ _ H1 A)|exact (IH _ _ _ H2 B)].
      + apply rbind_ok in E. destruct E as ([[i v] s'] & A & E). apply rbind_ok in E. destruct E as (r & B & E). injection E as <-.
        pose proof (run_below _ _ _ _ _ _ (run_forall _ _ H) A) as V. clear A. set (l := c :: cs) in *. clearbody l.
        apply Forall_app. rewrite <- (firstn_skipn (S i) l) in H. apply Forall_app in H. destruct H as [H1 H2]. split.
        * apply absents_below. rewrite Forall_forall in *. intros k K. apply H1. clear - K. revert l K.
          induction i as [|i IHi]; intros l K; [contradiction K|]. destruct l as [|y l]; [contradiction K|].
          change (In k (y :: firstn i l)) in K. change (In k (y :: firstn (S i) l)). destruct K as [K|K]; [left; exact K|right; exact (IHi _ K)].
        * constructor; [exact V|exact (IH _ _ _ H2 B)].
  Qed.
  Lemma set_below : forall N f cs sl s sl', Forall (comp_below N) cs -> Forall (obelow N) sl -> dec_set f cs sl s = Ok sl' -> Forall (obelow N) sl'.
  Proof.
    intros N f. induction f as [|f IH]; intros cs sl s sl' H S0 E; destruct s as [|b s].
    - cbn in E. injection E as <-. exact S0.
    - discriminate E.
    - cbn in E. injection E as <-. exact S0.
    - cbn [dec_set] in E. apply rbind_ok in E. destruct E as ([[i v] r] & A & E).
      exact (IH _ _ _ _ H (set_nth_forall (obelow N) sl i (Some v) S0 (run_below _ _ _ _ _ _ H A)) E).
  Qed.
  Lemma fill_below : forall N cs sl vs, Forall (comp_below N) cs -> Forall (obelow N) sl -> fill cs sl = Ok vs -> Forall (obelow N) vs.
  Proof.
    intros N cs. induction cs as [|c cs IH]; intros [|o sl] vs H S0 E; try discriminate E.
    - cbn in E. injection E as <-. constructor.
    - cbn [fill] in E. apply rbind_ok in E. destruct E as (r & A & E). inversion H as [|? ? H1 H2]; inversion S0 as [|? ? S1 S2]; subst.
      specialize (IH _ _ H2 S2 A). destruct o as [v|]; [injection E as <-; constructor; assumption|].
      destruct (required c); [discriminate E|]. injection E as <-. constructor; [|exact IH].
      unfold absent. destruct (c_pres c); try exact I. exact (proj2 H1).
  Qed.
  Lemma list_below : forall N f k s l, comp_below N k -> dec_list f k s = Ok l -> Forall (below N) l.
  Proof.
    intros N f. induction f as [|f IH]; intros k s l H E; destruct s as [|b s].
    - cbn in E. injection E as <-. constructor.
    - discriminate E.
    - cbn in E. injection E as <-. constructor.
    - cbn [dec_list] in E. apply rbind_ok in E. destruct E as ([v r] & A & E). apply rbind_ok in E. destruct E as (l' & B & E). injection E as <-.
      constructor; [exact (one_below _ _ _ _ _ H A)|exact (IH _ _ _ H B)].
  Qed.
  Lemma slots_below : forall N vs, Forall (obelow N) vs -> slots_levels vs <= N + D.
  Proof. intros N vs H. induction H as [|o vs A H IH]; cbn [slots_levels fold_right]; [lia|]. fold (slots_levels vs). destruct o as [v|]; cbn [opt_levels]; [destruct A as [A _]|]; lia. Qed.
  Lemma listed_below : forall N vs, Forall (below N) vs -> list_levels vs <= N + D.
  Proof. intros N vs H. induction H as [|v vs [A _] H IH]; cbn [list_levels fold_right]; [lia|]. fold (list_levels vs). lia. Qed.

  Lemma open_slots_below : forall N Op, O = Some Op -> forall fs0 vs0 fs vs vs', Forall (obelow N) vs -> open_slots Op fs0 vs0 fs vs = Ok vs' ->
    Forall (obelow N) vs'.
  Proof.
    intros N Op EO fs0 vs0 fs. induction fs as [|f fs IH]; intros [|o vs] vs' H E; try discriminate E.
    - cbn in E. injection E as <-. constructor.
    - cbn [open_slots] in E. apply rbind_ok in E. destruct E as (o' & A & E). apply rbind_ok in E. destruct E as (r & B & E). injection E as <-.
      pose proof (Forall_inv H) as H1. constructor; [|exact (IH _ _ (Forall_inv_tail H) B)]. clear IH B H.
      assert (RO : forall g d k x y, Op d k = Some g -> reopen g x = Ok y -> levels y <= D /\ match y with VList _ => False | _ => True end).
      { intros g d k x y G R. destruct x; try discriminate R. exact (OD Op EO _ _ _ _ _ G R). }
      unfold open_slot in A. destruct (fopen f) as [[n d]|]; [|injection A as <-; exact H1]. destruct o as [v|]; [|injection A as <-; exact I].
      destruct (gov_key _) as [k|]; [|destruct (existsb _ _); discriminate A]. destruct (Op d k) as [g|] eqn:G; [|injection A as <-; exact H1].
      assert (P : forall x y, reopen g x = Ok y -> obelow N (Some y)).
      { intros x y R. destruct (RO _ _ _ _ _ G R) as [L Q]. split; [lia|]. destruct y; auto. contradiction Q. }
      assert (Q : forall l l', rmap (reopen g) l = Ok l' -> list_levels l' <= D).
      { clear A. intro l. induction l as [|x l IHl]; intros l' R; [cbn in R; injection R as <-; cbn; lia|]. cbn [rmap] in R.
        apply rbind_ok in R. destruct R as (y & R1 & R). apply rbind_ok in R. destruct R as (r' & R2 & R). injection R as <-.
        cbn [list_levels fold_right]. fold (list_levels r'). specialize (IHl _ R2). destruct (RO _ _ _ _ _ G R1) as [L _]. lia. }
      destruct v as [| | | | | | | |l| |];
        try (apply rbind_ok in A; destruct A as (y & R & A); injection A as <-; exact (P _ _ R)).
      apply rbind_ok in A. destruct A as (l' & R & A). injection A as <-. destruct H1 as [_ H1]. specialize (Q _ _ R).
      split; [rewrite levels_list; lia|exact H1].
  Qed.

  Theorem dec_val_below : forall t ts tlv c v, dec_val O t ts tlv c = Ok v -> below (height t) v.
  Proof.
    intro t. induction t as [k m|s m fs IH|s m t IH|s m|m fs IH] using asn1_ind2; intros ts tlv c v H.
    - cbn [dec_val] in H. apply rbind_ok in H. destruct H as (w & P & H). destruct (csat [] (spec m) w); [|discriminate H].
      assert (w = v) by congruence. subst w. clear H.
      assert (A : levels v = 0); [|apply below_self; cbn [height]; lia].
      destruct v; try reflexivity; exfalso; destruct k; cbn [dec_prim] in P; repeat match type of P with
        | (if ?b then _ else _) = _ => destruct b | (match ?x with _ => _ end) = _ => destruct x | rbind _ _ = _ => apply rbind_ok in P; destruct P as (? & _ & P) end; discriminate P.
    - rewrite height_seq.
      assert (CB : Forall (comp_below (fields_height fs)) (map (fcomp O) fs)).
      { apply Forall_forall. intros k K. apply in_map_iff in K. destruct K as (f & <- & K). destruct (fields_height_in _ _ K) as [F1 F2].
        rewrite Forall_forall in IH. split.
        - intros ts' tlv' c' v' E. exact (below_le _ _ _ F1 (IH _ K _ _ _ _ E)).
        - cbn [fcomp c_def]. destruct (fdef f) as [d|]; [exact (below_self _ _ F2)|exact I]. }
      assert (G : exists vs, v = VSeq vs /\ Forall (obelow (fields_height fs)) vs).
      { rewrite dec_seq_val in H. destruct (constructed ts); [|discriminate H].
        assert (G : (let cs := map (fcomp O) fs in
            let! vs := if s then let! sl := dec_set (List.length c) cs (map (fun _ => None) cs) c in fill cs sl
                       else dec_seq (List.length cs) cs c in
            if existsb (fun f => is_some (fopen f)) fs then
              match O with
              | None => Ok (VSeq vs)
              | Some Op => let! vs' := open_slots Op fs vs fs vs in Ok (VSeq vs')
              end
            else if ctruthy (spec m) && negb (csat (fnames fs) (spec m) (VSeq vs)) then Err
            else Ok (VSeq vs)) = Ok v) by (destruct fs; [destruct c; [exact H|discriminate H]|exact H]).
        clear H. cbv zeta in G. apply rbind_ok in G. destruct G as (vs & E & G).
        assert (VB : Forall (obelow (fields_height fs)) vs).
        { destruct s.
          - apply rbind_ok in E. destruct E as (sl & E1 & E2). refine (fill_below _ _ _ _ CB _ E2). refine (set_below _ _ _ _ _ _ CB _ E1).
            apply Forall_forall. intros o K. apply in_map_iff in K. destruct K as (k & <- & _). exact I.
          - exact (seq_below _ _ _ _ _ CB E). }
        destruct (existsb _ fs).
        - destruct O as [Op|] eqn:EO.
          + apply rbind_ok in G. destruct G as (vs' & E' & G). exists vs'. split; [congruence|].
            rewrite <- EO in *. exact (open_slots_below _ Op EO _ _ _ _ _ VB E').
          + exists vs. split; [congruence|exact VB].
        - destruct (_ && _); [discriminate G|]. exists vs. split; [congruence|exact VB]. }
      destruct G as (vs & -> & VB). split; [|exact I]. rewrite levels_seq. pose proof (slots_below _ _ VB). lia.
    - cbn [height]. cbn [dec_val] in H. destruct (constructed ts); [|discriminate H]. apply rbind_ok in H. destruct H as (l & E & H).
      assert (v = VList l) by congruence. subst v.
      assert (CB : comp_below (height t) (mkC Req None (tag_map t) (is_any t) (dec_val O t))) by (split; [exact IH|exact I]).
      pose proof (listed_below _ _ (list_below _ _ _ _ _ CB E)). split; [rewrite levels_list; lia|lia].
    - cbn [height]. cbn [dec_val] in H. destruct (constructed ts); [|discriminate H]. destruct c; [|discriminate H].
      assert (v = VList []) by congruence. subst v. split; cbn; lia.
    - rewrite height_choice.
      assert (CB : Forall (comp_below (fields_height fs)) (map (fcomp O) fs)).
      { apply Forall_forall. intros k K. apply in_map_iff in K. destruct K as (f & <- & K). destruct (fields_height_in _ _ K) as [F1 F2].
        rewrite Forall_forall in IH. split.
        - intros ts' tlv' c' v' E. exact (below_le _ _ _ F1 (IH _ K _ _ _ _ E)).
        - cbn [fcomp c_def]. destruct (fdef f) as [d|]; [exact (below_self _ _ F2)|exact I]. }
      rewrite dec_choice_val in H. cbv zeta in H. destruct (tags_eqb ts (tags m)).
      + apply rbind_ok in H. destruct H as ([[i w] r] & E & H). assert (v = VAlt i w) by congruence. subst v.
        destruct (run_below _ _ _ _ _ _ CB E) as [A _]. split; [cbn [levels]; lia|exact I].
      + apply rbind_ok in H. destruct H as ([i k] & E & H). apply rbind_ok in H. destruct H as (w & V & H). assert (v = VAlt i w) by congruence. subst v.
        apply choose_in in E. apply nth_error_In in E. rewrite Forall_forall in CB. destruct (proj1 (CB _ E) _ _ _ _ V) as [A _].
        split; [cbn [levels]; lia|exact I].
  Qed.
End below.

(** Without decodeOpenTypes: no deeper than the type. *)
Theorem decode_levels : forall t s v rest, decode t s = Ok (v, rest) -> levels v <= height t.
Proof.
  intros t s v rest H. unfold decode, decode_with in H.
  assert (CB : comp_below 0 (height t) (comp_of None t)).
  { split; [|exact I]. intros ts tlv c w E. refine (dec_val_below None 0 _ t ts tlv c w E). intros Op E'. discriminate E'. }
  destruct (one_below 0 _ _ _ _ _ CB H) as [A _]. lia.
Qed.

(** With it: each level of opening adds the height of a registered type at most. *)
Section bound.
  Variable R : registry.
  Variable K : nat.
  Hypothesis RK : forall d k t, R d k = Some t -> height t <= K.
  Lemma opener_levels : forall n d k f b w, opener_of R n d k = Some f -> f b = Ok w ->
    levels w <= n * K /\ match w with VList _ => False | _ => True end.
  Proof.
    induction n as [|n IH]; intros d k f b w G E; cbn [opener_of] in G; destruct (R d k) as [t|] eqn:T; try discriminate G.
    - injection G as <-. discriminate E.
    - injection G as <-. apply rbind_ok in E. destruct E as ([v r] & E & X). assert (w = VTyped t (Some v)) by congruence. subst w.
      split; [|exact I]. cbn [levels]. unfold decode_with in E.
      assert (CB : comp_below (n * K) (height t) (comp_of (Some (opener_of R n)) t)).
      { split; [|exact I]. intros ts tlv c u E'. refine (dec_val_below _ _ _ t ts tlv c u E'). intros Op EO. injection EO as <-. exact IH. }
      destruct (one_below _ _ _ _ _ _ CB E) as [A _]. specialize (RK _ _ _ T). lia.
  Qed.
  Theorem decode_open_levels : forall t s v rest, decode_open R t s = Ok (v, rest) -> levels v <= height t + S (List.length s) * K.
  Proof.
    intros t s v rest H. unfold decode_open, decode_with in H.
    assert (CB : comp_below (S (List.length s) * K) (height t) (comp_of (Some (opener_of R (S (List.length s)))) t)).
    { split; [|exact I]. intros ts tlv c u E'. refine (dec_val_below _ _ _ t ts tlv c u E'). intros Op EO. assert (Q : Op = opener_of R (S (List.length s))) by congruence. rewrite Q. apply opener_levels. }
    exact (proj1 (one_below _ _ _ _ _ _ CB H)).
  Qed.
End bound.
End codec.
