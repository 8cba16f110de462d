(** Facts about the import machine that hold for every table of modules and every
    history; the finite facts about this repository are in Load/Finite.v. *)
From Coq Require Import List String ZArith NArith Bool Lia.
From Verif Require Import Py.Syntax Asn1.Types Py.Eval Py.Mono Gen.All Load.Import.
Import ListNotations.
Open Scope string_scope.
Open Scope list_scope.

(** Dependencies written in a module. *)
Definition deps (p : module) : list string := flat_map (fun ls => needs (snd ls)) p.

(** [reach m n]: importing [m] requires [n] (reflexive, transitive). *)
Inductive reach : string -> string -> Prop :=
| reach_refl m : reach m m
| reach_step m p n k : lookup all_modules m = Some p -> In n (deps p) -> reach n k -> reach m k.

(** Execution of a whole module when nothing has to be loaded. *)
Definition exec_pure (M : string) (i : string -> option modres) (p : module) (S : state) : r state :=
  foldM (fun S ls => exec_stmt M i S (snd ls)) p S.

(** ** The log of registry updates only grows *)

Lemma exec_class_log : forall M i fuel q base body attrs S attrs' S',
  exec_class M i fuel q base body attrs S = OK (attrs', S') -> s_log S' = s_log S.
Proof.
  induction fuel as [|n IH]; intros q base body attrs S attrs' S'; cbn [exec_class]; [discriminate|].
  destruct body as [|s body]; [intro E; inversion E; auto|].
  intro E.
  match type of E with bind ?x _ = _ => destruct x as [[a1 S1]| |] eqn:E1; try discriminate end.
  cbn [bind] in E. apply IH in E. rewrite E.
  destruct s; try discriminate.
  - destruct targets as [|[] [|]]; try discriminate.
    destruct (ev M i attrs S v); try discriminate. inversion E1; auto.
  - destruct (ev M i attrs S e); try discriminate. inversion E1; auto.
  - inversion E1; auto.
  - destruct (ev M i attrs S base0) as [v| |]; try discriminate. cbn [bind] in E1.
    destruct v; try discriminate.
    match type of E1 with bind ?x _ = _ => destruct x as [[a2 S2]| |] eqn:E2; try discriminate end.
    cbn [bind] in E1. apply IH in E2. inversion E1; subst. cbn. auto.
  - inversion E1; auto.
Qed.

Lemma assign_target_log : forall M i S t v S', assign_target M i S t v = OK S' -> s_log S' = s_log S.
Proof.
  intros M i S t v S'. unfold assign_target. destruct t; try discriminate.
  - intro E; inversion E; auto.
  - destruct t; try discriminate.
    destruct (ev M i [] S (EName x)) as [w| |]; try discriminate. cbn [bind]. destruct w; try discriminate.
    + destruct c; try discriminate. destruct (String.eqb m M); try discriminate.
      destruct (set_class_attr _ _ _ _); try discriminate. intro E; inversion E; auto.
    + destruct (String.eqb a "_componentType"); try discriminate. intro E; inversion E; auto.
  - destruct (sub_path (ESub t1 t2) []) as [[x path]|]; try discriminate.
    destruct (ev M i [] S (EName x)) as [w| |]; try discriminate. cbn [bind].
    destruct (mapM _ path); try discriminate. cbn [bind]. destruct w; try discriminate.
    destruct (assign_path _ _ _ _); try discriminate. intro E; inversion E; auto.
Qed.

Lemma exec_stmt_log : forall M i S s S', exec_stmt M i S s = OK S' ->
  s_log S' = s_log S ++ delta S S'.
Proof.
  intros M i S s S' E.
  assert (K : exists d, s_log S' = s_log S ++ d).
  2:{ destruct K as [d K]. unfold delta. rewrite K.
      rewrite skipn_app, skipn_all, PeanoNat.Nat.sub_diag. reflexivity. }
  assert (AG : forall v ts S0 S1,
    (fix go (ts : list expr) (S : state) : r state :=
       match ts with [] => OK S | t :: ts' => do S' <- assign_target M i S t v; go ts' S' end) ts S0 = OK S1 ->
    s_log S1 = s_log S0).
  { intros v. induction ts as [|t ts IH]; intros S0 S1 E1; [inversion E1; auto|].
    destruct (assign_target M i S0 t v) as [S2| |] eqn:E2; try discriminate. cbn [bind] in E1.
    apply IH in E1. apply assign_target_log in E2. congruence. }
  assert (SAME : s_log S' = s_log S -> exists d, s_log S' = s_log S ++ d).
  { intro H; exists []. rewrite app_nil_r. exact H. }
  destruct s; cbn [exec_stmt] in E; try discriminate.
  - destruct (is_lib m); try discriminate. apply SAME. inversion E; auto.
  - apply SAME. revert S E SAME. induction names as [|[a b] names IH]; intros S E SAME.
    + inversion E; auto.
    + destruct (import_from i m a); try discriminate. cbn [bind] in E.
      apply IH in E; [exact E|]. intros K; exists []; rewrite app_nil_r; exact K.
  - destruct (strip_pkg m); try discriminate. destruct (i s); try discriminate.
    apply SAME. inversion E; auto.
  - assert (D : (do v0 <- ev M i [] S v;
      (fix go (ts : list expr) (S : state) : r state :=
         match ts with [] => OK S | t :: ts' => do S' <- assign_target M i S t v0; go ts' S' end) targets S) = OK S' ->
         exists d, s_log S' = s_log S ++ d).
    { destruct (ev M i [] S v); try discriminate. cbn [bind]. intro E1. apply SAME, (AG _ _ _ _ E1). }
    destruct targets as [|t1 [|t2 ts]]; try exact (D E); destruct t1; try exact (D E).
    destruct v; try exact (D E). clear D.
    destruct (existsb _ _); try discriminate.
    match type of E with bind ?x _ = _ => destruct x as [its| |]; try discriminate end.
    cbn [bind] in E. inversion E; cbn. eauto.
  - destruct e as [| |f args kw| | | | | | | | | |]; try discriminate.
    destruct f as [|f m| | | | | | | | | | |]; try discriminate.
    destruct args as [|a0 [|]]; try discriminate. destruct kw; try discriminate.
    destruct (String.eqb m "update"); try discriminate.
    destruct (ev M i [] S f) as [o| |]; try discriminate. cbn [bind] in E.
    destruct (ev M i [] S a0) as [a| |]; try discriminate. cbn [bind] in E.
    destruct o; try discriminate. destruct a; try discriminate. destruct d0 as [M' x].
    destruct (String.eqb M' M); try discriminate. inversion E; cbn. eauto.
  - apply SAME. inversion E; auto.
  - destruct (ev M i [] S base) as [v| |]; try discriminate. cbn [bind] in E.
    destruct v; try discriminate.
    match type of E with bind ?x _ = _ => destruct x as [[at' S1]| |] eqn:E1; try discriminate end.
    cbn [bind] in E. apply exec_class_log in E1. apply SAME. inversion E; cbn. auto.
  - apply SAME. inversion E; auto.
Qed.

Opaque all_modules exec_stmt.
Ltac conjs := repeat match goal with |- _ /\ _ => split | |- _ <-> _ => split end.

(** ** Good module tables *)

(** Every entry was computed from the entries loaded before it. *)
Inductive good : list (string * modres) -> Prop :=
| good_nil : good []
| good_cons m S p l : good l -> lookup l m = None -> lookup all_modules m = Some p ->
    exec_pure m (lookup l) p init = OK S -> (forall n, In n (deps p) -> lookup l n <> None) ->
    good ((m, result S) :: l).

Lemma lookup_tail_ext : forall (l : list (string * modres)) m R, lookup l m = None ->
  ext (lookup l) (lookup ((m, R) :: l)).
Proof.
  intros l m R H x Q E. cbn [lookup]. destruct (String.eqb x m) eqn:Ex; [|exact E].
  apply String.eqb_eq in Ex. subst. congruence.
Qed.

Lemma exec_pure_mono : forall M i j p S, ext i j -> le (exec_pure M i p S) (exec_pure M j p S).
Proof.
  intros M i j p. unfold exec_pure. induction p as [|[n s] p IH]; intros S H; cbn [foldM]; [apply le_refl|].
  apply le_bind; [apply exec_stmt_mono, H|]. intro a. apply IH, H.
Qed.

(** An entry of a good table is the pure execution under the whole table. *)
Lemma good_entry : forall l, good l -> forall m R, lookup l m = Some R ->
  exists p S, lookup all_modules m = Some p /\ exec_pure m (lookup l) p init = OK S /\ R = result S
              /\ forall n, In n (deps p) -> lookup l n <> None.
Proof.
  induction 1 as [|m S p l Hl IH Hm Hp He Hd]; intros x R E; [discriminate|].
  pose proof (lookup_tail_ext l m (result S) Hm) as X.
  cbn [lookup] in E. destruct (String.eqb x m) eqn:Ex.
  - apply String.eqb_eq in Ex. subst x. inversion E; subst R.
    exists p, S. split; [exact Hp|]. split; [exact (exec_pure_mono _ _ _ _ _ X _ He)|]. split; [reflexivity|].
    intros n Hn. specialize (Hd n Hn). destruct (lookup l n) eqn:E1; [|congruence].
      rewrite (X _ _ E1). discriminate.
  - destruct (IH _ _ E) as (p' & S' & A & B & C & D). exists p', S'.
    split; [exact A|]. split; [exact (exec_pure_mono _ _ _ _ _ X _ B)|]. split; [exact C|].
    intros n Hn. specialize (D n Hn). destruct (lookup l n) eqn:E1; [|congruence].
      rewrite (X _ _ E1). discriminate.
Qed.

(** Two good tables agree on the modules they share. *)
Lemma good_agree : forall l, good l -> forall l', good l' -> forall m R R',
  lookup l m = Some R -> lookup l' m = Some R' -> R = R'.
Proof.
  induction 1 as [|m S p l Hl IH Hm Hp He Hd]; intros l' G' x R R' E E'; [discriminate|].
  cbn [lookup] in E. destruct (String.eqb x m) eqn:Ex; [|eapply IH; eauto].
  apply String.eqb_eq in Ex. subst x. inversion E; subst R. clear E.
  destruct (good_entry _ G' _ _ E') as (p' & S' & A & B & C & _).
  rewrite Hp in A. inversion A; subst p'. subst R'.
  set (j := fun x => match lookup l x with Some R => Some R | None => lookup l' x end).
  assert (X1 : ext (lookup l) j) by (intros y Q Ey; unfold j; rewrite Ey; reflexivity).
  assert (X2 : ext (lookup l') j).
  { intros y Q Ey. unfold j. destruct (lookup l y) eqn:E1; [|exact Ey].
    f_equal. eapply IH; eauto. }
  apply (exec_pure_mono _ _ _ _ _ X1) in He. apply (exec_pure_mono _ _ _ _ _ X2) in B.
  congruence.
Qed.

(** Good tables are closed under dependency. *)
Lemma good_closed : forall l, good l -> forall m n, reach m n -> lookup l m <> None -> lookup l n <> None.
Proof.
  intros l G m n R. induction R as [m|m p n k Hp Hn R IH]; intro H; [exact H|].
  apply IH. destruct (lookup l m) as [Q|] eqn:E; [|congruence].
  destruct (good_entry _ G _ _ E) as (p' & S & A & _ & _ & D).
  rewrite Hp in A; inversion A; subst p'. apply D, Hn.
Qed.

(** ** What an import does *)

(** [l] is the list of registry updates performed by the modules loaded between
    [W] and [W1], plus [own]. *)
Record step (m : string) (W W1 : world) : Prop := {
  st_ext : ext (loaded W) (loaded W1);
  st_good : good (w_mods W) -> good (w_mods W1);
  st_new : forall n, loaded W n = None -> loaded W1 n <> None -> reach m n;
  st_log : exists l, w_log W1 = w_log W ++ l /\
           (forall n e, In (n, e) l <-> exists R, loaded W n = None /\ loaded W1 n = Some R /\ In e (m_log R))
}.

Lemma step_refl : forall m W, step m W W.
Proof.
  intros m W. split; auto.
  - apply ext_refl.
  - intros n A B; congruence.
  - exists []. rewrite app_nil_r. split; auto. intros n e; split; [intros []|].
    intros (R & A & B & _). congruence.
Qed.

Lemma step_trans : forall m n W W1 W2, (forall k, reach n k -> reach m k) ->
  step m W W1 -> step n W1 W2 -> step m W W2.
Proof.
  intros m n W W1 W2 Hmn [A1 B1 C1 (l1 & D1 & F1)] [A2 B2 C2 (l2 & D2 & F2)]. split.
  - eapply ext_trans; eauto.
  - auto.
  - intros k E1 E2. destruct (loaded W1 k) eqn:E; [apply C1; congruence|].
    apply Hmn, C2; auto.
  - exists (l1 ++ l2). split; [rewrite D2, D1, app_assoc; reflexivity|].
    intros k e. rewrite in_app_iff, F1, F2. split.
    + intros [(R & X & Y & Z)|(R & X & Y & Z)].
      * exists R. conjs; auto.
      * exists R. conjs; auto. destruct (loaded W k) eqn:E; [|reflexivity].
        rewrite (A1 _ _ E) in X. discriminate.
    + intros (R & X & Y & Z). destruct (loaded W1 k) eqn:E.
      * left. exists m0. conjs; auto. rewrite (A2 _ _ E) in Y. inversion Y; subst; auto.
      * right. exists R. auto.
Qed.

Lemma foldM_step : forall imp1 m l W W1,
  (forall n W W1, In n l -> imp1 W n = OK W1 -> step m W W1 /\ loaded W1 n <> None) ->
  foldM imp1 l W = OK W1 -> step m W W1 /\ (forall n, In n l -> loaded W1 n <> None).
Proof.
  intros imp1 m. induction l as [|n l IH]; intros W W1 H E; cbn [foldM] in E.
  - inversion E; subst. split; [apply step_refl|intros n []].
  - destruct (imp1 W n) as [W2| |] eqn:E2; try discriminate. cbn [bind] in E.
    destruct (H n W W2 (or_introl eq_refl) E2) as [S1 L1].
    destruct (IH W2 W1) as [S2 L2]; [intros; apply H; [right|]; auto|exact E|].
    split; [eapply step_trans; eauto|].
    intros k [<-|Hk]; [|auto].
    destruct (loaded W2 n) eqn:E3; [|congruence]. rewrite (st_ext _ _ _ S2 _ _ E3). discriminate.
Qed.

(** The run of a module body: worlds between statements, own updates logged. *)
Lemma run_step : forall imp1 m M p W S W1 S1,
  (forall n W W1, In n (deps p) -> imp1 W n = OK W1 -> step m W W1 /\ loaded W1 n <> None) ->
  run imp1 M p W S = OK (W1, S1) ->
  ext (loaded W) (loaded W1) /\
  (good (w_mods W) -> good (w_mods W1)) /\
  (forall n, loaded W n = None -> loaded W1 n <> None -> reach m n) /\
  (forall n, In n (deps p) -> loaded W1 n <> None) /\
  exec_pure M (loaded W1) p S = OK S1 /\
  exists l own, w_log W1 = w_log W ++ l /\ s_log S1 = s_log S ++ own /\
    (forall n e, In (n, e) l <-> (n = M /\ In e own) \/ exists R, loaded W n = None /\ loaded W1 n = Some R /\ In e (m_log R)).
Proof.
  intros imp1 m M. induction p as [|[ln s] p IH]; intros W S W1 S1 H E; cbn [run] in E.
  - inversion E; subst. conjs; auto.
    + apply ext_refl.
    + intros n A B; congruence.
    + exists [], []. rewrite !app_nil_r. split; [reflexivity|]. split; [reflexivity|].
      intros n e. split; [intros []|]. intros [[_ []]|(R & A & B & _)]. congruence.
  - destruct (foldM imp1 (needs s) W) as [Wa| |] eqn:Ea; try discriminate. cbn [bind] in E.
    destruct (exec_stmt M (loaded Wa) S s) as [Sa| |] eqn:Es; try discriminate. cbn [bind] in E.
    destruct (foldM_step imp1 m (needs s) W Wa) as [ST LD].
    { intros; apply H; auto. unfold deps. cbn [flat_map]. apply in_or_app. left; auto. }
    { exact Ea. }
    set (Wb := mkW (w_mods Wa) (w_log Wa ++ map (pair M) (delta S Sa))) in *.
    destruct (IH Wb Sa W1 S1) as (A & B & C & D & F & l & own & G1 & G2 & G3).
    { intros; apply H; auto. unfold deps. cbn [flat_map]. apply in_or_app. right; auto. }
    { exact E. }
    change (loaded Wb) with (loaded Wa) in *. change (w_mods Wb) with (w_mods Wa) in *.
    destruct ST as [T1 T2 T3 (la & T4 & T5)].
    pose proof (exec_stmt_log _ _ _ _ _ Es) as EL.
    split; [eapply ext_trans; eauto|].
    split; [auto|].
    split.
    { intros n X Y. destruct (loaded Wa n) eqn:En; [apply T3; congruence|apply C; auto]. }
    split.
    { intros n Hn. unfold deps in Hn. cbn [flat_map snd] in Hn. apply in_app_or in Hn.
      destruct Hn as [Hn|Hn]; [|apply D, Hn].
      specialize (LD n Hn). destruct (loaded Wa n) eqn:En; [|congruence].
      rewrite (A _ _ En). discriminate. }
    split.
    { unfold exec_pure. cbn [foldM snd].
      rewrite (exec_stmt_mono M _ _ A S s _ Es). cbn [bind]. exact F. }
    exists (la ++ map (pair M) (delta S Sa) ++ l), (delta S Sa ++ own).
    split; [rewrite G1; unfold Wb; cbn [w_log]; rewrite T4, !app_assoc; reflexivity|].
    split; [rewrite G2, EL, !app_assoc; reflexivity|].
    intros n e. rewrite !in_app_iff, T5, G3. split.
    + intros [(R & X & Y & Z)|[X|[[X X']|(R & X & Y & Z)]]]; auto.
      * right. exists R. auto.
      * apply in_map_iff in X. destruct X as (e' & X & X'). inversion X; subst. auto.
      * right. exists R. conjs; auto. destruct (loaded W n) eqn:En; auto.
        rewrite (T1 _ _ En) in X. discriminate.
    + intros [[X [X'|X']]|(R & X & Y & Z)]; auto.
      * subst. right; left. apply in_map. exact X'.
      * destruct (loaded Wa n) eqn:En.
        -- left. exists m0. conjs; auto. rewrite (A _ _ En) in Y. inversion Y; subst; auto.
        -- right; right; right. exists R; auto.
Qed.

(** A module being loaded is not loaded by its own dependencies. *)
Lemma import_loading : forall fuel ld W m W1 x, import fuel ld W m = OK W1 -> In x ld ->
  loaded W x = None -> loaded W1 x = None.
Proof.
  induction fuel as [|f IH]; intros ld W m W1 x E Hx Hn; cbn [import] in E; [discriminate|].
  destruct (loaded W m); [inversion E; subst; auto|].
  destruct (existsb (String.eqb m) ld) eqn:Ex; [discriminate|].
  destruct (lookup all_modules m) as [p|]; [|discriminate].
  match type of E with bind ?y _ = _ => destruct y as [[W2 S2]| |] eqn:E2; try discriminate end.
  cbn [bind] in E. inversion E; subst. unfold loaded. cbn [w_mods lookup].
  destruct (String.eqb x m) eqn:Exm.
  { apply String.eqb_eq in Exm. subst. exfalso.
    assert (K : existsb (String.eqb m) ld = true) by (apply existsb_exists; exists m; split; auto; apply String.eqb_refl).
    congruence. }
  clear E Ex. revert W S2 W2 E2 Hn. generalize init.
  induction p as [|[ln s] p IHp]; intros S0 W S2 W2 E2 Hn; cbn [run] in E2.
  - inversion E2; subst. exact Hn.
  - destruct (foldM (import f (m :: ld)) (needs s) W) as [Wa| |] eqn:Ea; try discriminate. cbn [bind] in E2.
    destruct (exec_stmt m (loaded Wa) S0 s) as [Sa| |] eqn:Es; try discriminate. cbn [bind] in E2.
    eapply IHp; [exact E2|]. change (loaded Wa x = None).
    clear -IH Hx Hn Ea. revert W Hn Ea. induction (needs s) as [|n l IHl]; intros W Hn Ea; cbn [foldM] in Ea.
    + inversion Ea; subst; auto.
    + destruct (import f (m :: ld) W n) as [Wn| |] eqn:En; try discriminate. cbn [bind] in Ea.
      eapply IHl; [|exact Ea]. eapply IH; [exact En|right; exact Hx|exact Hn].
Qed.

Lemma run_loading : forall f ld M p W S W1 S1 x, run (import f ld) M p W S = OK (W1, S1) -> In x ld ->
  loaded W x = None -> loaded W1 x = None.
Proof.
  intros f ld M. induction p as [|[ln s] p IHp]; intros W S W1 S1 x E Hx Hn; cbn [run] in E.
  - inversion E; subst; auto.
  - destruct (foldM (import f ld) (needs s) W) as [Wa| |] eqn:Ea; try discriminate. cbn [bind] in E.
    destruct (exec_stmt M (loaded Wa) S s) as [Sa| |] eqn:Es; try discriminate. cbn [bind] in E.
    eapply IHp; [exact E|exact Hx|]. change (loaded Wa x = None).
    clear -Hx Hn Ea. revert W Hn Ea. induction (needs s) as [|n l IHl]; intros W Hn Ea; cbn [foldM] in Ea.
    + inversion Ea; subst; auto.
    + destruct (import f ld W n) as [Wn| |] eqn:En; try discriminate. cbn [bind] in Ea.
      eapply IHl; [|exact Ea]. eapply import_loading; eauto.
Qed.

Theorem import_step : forall fuel ld W m W1, import fuel ld W m = OK W1 ->
  step m W W1 /\ loaded W1 m <> None.
Proof.
  induction fuel as [|f IH]; intros ld W m W1 E; cbn [import] in E; [discriminate|].
  destruct (loaded W m) eqn:Em; [inversion E; subst; split; [apply step_refl|congruence]|].
  destruct (existsb (String.eqb m) ld) eqn:Ex; [discriminate|].
  destruct (lookup all_modules m) as [p|] eqn:Ep; [|discriminate].
  match type of E with bind ?y _ = _ => destruct y as [[W2 S2]| |] eqn:E2; try discriminate end.
  cbn [bind] in E. inversion E; subst W1; clear E.
  assert (N2 : loaded W2 m = None) by (eapply run_loading; [exact E2|left; reflexivity|exact Em]).
  destruct (run_step (import f (m :: ld)) m m p W init W2 S2) as (A & B & C & D & F & l & own & G1 & G2 & G3).
  { intros n Wx Wy Hn Ey. destruct (IH _ _ _ _ Ey) as [ST LN]. split; [|exact LN].
    destruct ST as [T1 T2 T3 T4]. split; auto. intros k X Y. eapply reach_step; eauto. }
  { exact E2. }
  set (W3 := mkW ((m, result S2) :: w_mods W2) (w_log W2)).
  assert (X23 : ext (loaded W2) (loaded W3)) by (apply lookup_tail_ext; exact N2).
  assert (L3 : forall n, loaded W3 n = if String.eqb n m then Some (result S2) else loaded W2 n) by reflexivity.
  split.
  - split.
    + eapply ext_trans; eauto.
    + intro G. cbn [W3 w_mods]. apply good_cons with (p := p); auto.
    + intros n X Y. rewrite L3 in Y. destruct (String.eqb n m) eqn:Enm.
      * apply String.eqb_eq in Enm. subst. constructor.
      * apply C; auto.
    + exists l. split; [exact G1|]. intros n e. rewrite G3. split.
      * intros [[-> X]|(R & X & Y & Z)].
        -- exists (result S2). split; [exact Em|]. rewrite L3, String.eqb_refl. split; [reflexivity|].
           cbn [result m_log]. rewrite G2. cbn. exact X.
        -- exists R. conjs; auto.
      * intros (R & X & Y & Z). rewrite L3 in Y. destruct (String.eqb n m) eqn:Enm.
        -- left. apply String.eqb_eq in Enm. split; [exact Enm|].
           inversion Y; subst R. cbn [result m_log] in Z. rewrite G2 in Z. exact Z.
        -- right. exists R. auto.
  - rewrite L3, String.eqb_refl. discriminate.
Qed.

(** ** Importing in a larger world succeeds too *)

Lemma import_mono : forall fuel ld W m W1 W',
  import fuel ld W m = OK W1 -> good (w_mods W) -> good (w_mods W') -> ext (loaded W) (loaded W') ->
  (forall x, In x ld -> loaded W' x = None) ->
  exists W1', import fuel ld W' m = OK W1' /\ ext (loaded W1) (loaded W1').
Proof.
  induction fuel as [|f IH]; intros ld W m W1 W' E G G' X HL; [discriminate|].
  pose proof (import_step _ _ _ _ _ E) as [ST LM].
  cbn [import] in E |- *.
  destruct (loaded W' m) as [Q|] eqn:EQ.
  { (* already loaded: so is everything it needs *)
    exists W'. split; [reflexivity|]. intros n R En.
    destruct (loaded W n) eqn:E0.
    - rewrite (st_ext _ _ _ ST _ _ E0) in En. inversion En; subst. apply X, E0.
    - assert (reach m n) by (apply (st_new _ _ _ ST); congruence).
      assert (L : lookup (w_mods W') n <> None) by (eapply good_closed; eauto; unfold loaded in EQ; congruence).
      destruct (lookup (w_mods W') n) as [R'|] eqn:E'; [|congruence].
      unfold loaded. rewrite E'. f_equal. symmetry.
      eapply good_agree; [apply (st_good _ _ _ ST), G|exact G'|exact En|exact E']. }
  assert (EW : loaded W m = None).
  { destruct (loaded W m) eqn:E0; [|reflexivity]. rewrite (X _ _ E0) in EQ. discriminate. }
  rewrite EW in E.
  destruct (existsb (String.eqb m) ld) eqn:Ex; [discriminate|].
  destruct (lookup all_modules m) as [p|] eqn:Ep; [|discriminate].
  match type of E with bind ?y _ = _ => destruct y as [[W2 S2]| |] eqn:E2; try discriminate end.
  cbn [bind] in E. inversion E; subst W1; clear E.
  assert (HL' : forall x, In x (m :: ld) -> loaded W' x = None) by (intros x [<-|Hx]; auto).
  assert (RUN : forall p W S W2 S2 W', run (import f (m :: ld)) m p W S = OK (W2, S2) ->
     good (w_mods W) -> good (w_mods W') -> ext (loaded W) (loaded W') ->
     (forall x, In x (m :: ld) -> loaded W' x = None) ->
     exists W2', run (import f (m :: ld)) m p W' S = OK (W2', S2) /\ ext (loaded W2) (loaded W2')).
  { clear -IH. induction p as [|[ln s] p IHp]; intros W S W2 S2 W' E G G' X HL; cbn [run] in *.
    - inversion E; subst. exists W'. auto.
    - destruct (foldM (import f (m :: ld)) (needs s) W) as [Wa| |] eqn:Ea; try discriminate. cbn [bind] in E.
      assert (FA : exists Wa', foldM (import f (m :: ld)) (needs s) W' = OK Wa' /\ ext (loaded Wa) (loaded Wa')
                   /\ good (w_mods Wa) /\ good (w_mods Wa') /\ (forall x, In x (m :: ld) -> loaded Wa' x = None)).
      { clear E IHp. revert W W' Ea G G' X HL. induction (needs s) as [|n l IHl]; intros W W' Ea G G' X HL; cbn [foldM] in *.
        - inversion Ea; subst. exists W'. auto.
        - destruct (import f (m :: ld) W n) as [Wn| |] eqn:En; try discriminate. cbn [bind] in Ea.
          destruct (IH _ _ _ _ _ En G G' X HL) as (Wn' & En' & Xn).
          rewrite En'. cbn [bind]. eapply IHl; eauto.
          + apply import_step in En. apply (st_good _ _ _ (proj1 En)), G.
          + apply import_step in En'. apply (st_good _ _ _ (proj1 En')), G'.
          + intros x Hx. eapply import_loading; eauto. }
      destruct FA as (Wa' & Ea' & Xa & Ga & Ga' & HLa).
      rewrite Ea'. cbn [bind].
      destruct (exec_stmt m (loaded Wa) S s) as [Sa| |] eqn:Es; try discriminate. cbn [bind] in E.
      rewrite (exec_stmt_mono m _ _ Xa S s _ Es). cbn [bind].
      eapply IHp; [exact E| | | |]; auto. }
  destruct (RUN _ _ _ _ _ _ E2 G G' X HL') as (W2' & E2' & X2).
  rewrite E2'. cbn [bind]. eexists. split; [reflexivity|].
  intros n R En. unfold loaded in *. cbn [w_mods lookup] in *.
  destruct (String.eqb n m); auto.
Qed.

(** ** Sessions *)

Lemma session_facts : forall h W W1, foldM (import nesting []) h W = OK W1 -> good (w_mods W) ->
  good (w_mods W1) /\ ext (loaded W) (loaded W1)
  /\ (forall m, In m h -> loaded W1 m <> None)
  /\ (forall n, loaded W n = None -> loaded W1 n <> None -> exists m, In m h /\ reach m n)
  /\ exists l, w_log W1 = w_log W ++ l /\
       (forall n e, In (n, e) l <-> exists R, loaded W n = None /\ loaded W1 n = Some R /\ In e (m_log R)).
Proof.
  induction h as [|m h IH]; intros W W1 E G; cbn [foldM] in E.
  - inversion E; subst. split; [exact G|]. split; [apply ext_refl|]. split; [intros m []|].
    split; [intros n A B; congruence|].
    exists []. rewrite app_nil_r. split; [reflexivity|]. intros n e; split; [intros []|].
    intros (R & A & B & _). congruence.
  - destruct (import nesting [] W m) as [Wa| |] eqn:Ea; try discriminate. cbn [bind] in E.
    destruct (import_step _ _ _ _ _ Ea) as [[T1 T2 T3 (la & T4 & T5)] LM].
    destruct (IH _ _ E (T2 G)) as (A & B & C & D & l & F1 & F2).
    split; [exact A|]. split; [eapply ext_trans; eauto|]. split; [|split].
    + intros k [<-|Hk]; auto. destruct (loaded Wa m) eqn:E1; [|congruence]. rewrite (B _ _ E1). discriminate.
    + intros n X Y. destruct (loaded Wa n) eqn:En.
      * exists m. split; [left; auto|]. apply T3; congruence.
      * destruct (D n En Y) as (k & Hk & Rk). exists k. split; [right|]; auto.
    + exists (la ++ l). split; [rewrite F1, T4, app_assoc; reflexivity|].
      intros n e. rewrite in_app_iff, T5, F2. split.
      * intros [(R & X & Y & Z)|(R & X & Y & Z)]; exists R; conjs; auto.
        destruct (loaded W n) eqn:En; auto. rewrite (T1 _ _ En) in X. discriminate.
      * intros (R & X & Y & Z). destruct (loaded Wa n) eqn:En.
        -- left. exists m0. conjs; auto. rewrite (B _ _ En) in Y. inversion Y; subst; auto.
        -- right. exists R. auto.
Qed.

(** If each module can be imported in a fresh interpreter, every history succeeds. *)
Lemma session_total : (forall m, In m (map fst all_modules) -> exists W, session [m] = OK W) ->
  forall h W, good (w_mods W) -> (forall m, In m h -> In m (map fst all_modules)) ->
  exists W1, foldM (import nesting []) h W = OK W1.
Proof.
  intros H. induction h as [|m h IH]; intros W G Hh; [eexists; reflexivity|].
  destruct (H m (Hh m (or_introl eq_refl))) as [W0 E0].
  unfold session in E0. cbn [foldM] in E0.
  destruct (import nesting [] empty m) as [Wm| |] eqn:Em; try discriminate.
  destruct (import_mono _ _ _ _ _ W Em) as (W1 & E1 & X1); auto.
  - constructor.
  - intros n R En; discriminate.
  - intros x [].
  - cbn [foldM]. rewrite E1. cbn [bind]. apply IH.
    + apply import_step in E1. apply (st_good _ _ _ (proj1 E1)), G.
    + intros k Hk. apply Hh. right; exact Hk.
Qed.

(** ** Order of registry updates *)

(** Statements that may touch a registry. *)
Definition touches (s : stmt) : bool :=
  match s with SAssign [EName _] (EDict _) | SExpr _ => true | _ => false end.
(** Modules imported before the first statement that may touch a registry. *)
Fixpoint early_needs (p : module) : list string :=
  match p with
  | [] => []
  | (_, s) :: p' => if touches s then [] else needs s ++ early_needs p'
  end.
Definition early (m n : string) : Prop :=
  exists p, lookup all_modules m = Some p /\ In n (early_needs p).

Transparent exec_stmt.
Lemma untouched_log : forall M i S s S', exec_stmt M i S s = OK S' -> touches s = false -> delta S S' = [].
Proof.
  intros M i S s S' E T.
  assert (K : s_log S' = s_log S).
  2:{ unfold delta. rewrite K, skipn_all. reflexivity. }
  assert (AG : forall v ts S0 S1,
    (fix go (ts : list expr) (S : state) : r state :=
       match ts with [] => OK S | t :: ts' => do S' <- assign_target M i S t v; go ts' S' end) ts S0 = OK S1 ->
    s_log S1 = s_log S0).
  { intros v. induction ts as [|t ts IH]; intros S0 S1 E1; [inversion E1; auto|].
    destruct (assign_target M i S0 t v) as [S2| |] eqn:E2; try discriminate. cbn [bind] in E1.
    apply IH in E1. apply assign_target_log in E2. congruence. }
  destruct s; cbn [exec_stmt] in E; try discriminate.
  - destruct (is_lib m); try discriminate. inversion E; auto.
  - clear AG. revert S E. induction names as [|[a b] names IH]; intros S E.
    + inversion E; auto.
    + destruct (import_from i m a); try discriminate. cbn [bind] in E. apply IH in E; [exact E|reflexivity].
  - destruct (strip_pkg m); try discriminate. destruct (i s); try discriminate. inversion E; auto.
  - assert (D : (do v0 <- ev M i [] S v;
      (fix go (ts : list expr) (S : state) : r state :=
         match ts with [] => OK S | t :: ts' => do S' <- assign_target M i S t v0; go ts' S' end) targets S) = OK S' ->
         s_log S' = s_log S).
    { destruct (ev M i [] S v); try discriminate. cbn [bind]. intro E1. apply (AG _ _ _ _ E1). }
    destruct targets as [|t1 [|t2 ts]]; try exact (D E); destruct t1; try exact (D E).
    destruct v; try exact (D E). discriminate.
  - inversion E; auto.
  - destruct (ev M i [] S base) as [v| |]; try discriminate. cbn [bind] in E.
    destruct v; try discriminate.
    match type of E with bind ?x _ = _ => destruct x as [[at' S1]| |] eqn:E1; try discriminate end.
    cbn [bind] in E. apply exec_class_log in E1. inversion E; cbn. auto.
  - inversion E; auto.
Qed.
Opaque exec_stmt.

(** A module that updates registries after importing [n] does so after all the
    updates of [n]. *)
Definition ordered (W : world) : Prop := forall m n, early m n ->
  forall l1 e l2, w_log W = l1 ++ (m, e) :: l2 -> loaded W n <> None /\ forall e', ~ In (n, e') l2.

Lemma split_app {A} : forall (a b l1 l2 : list A) x, a ++ b = l1 ++ x :: l2 ->
  (exists l2', a = l1 ++ x :: l2' /\ l2 = l2' ++ b) \/ (exists l1', b = l1' ++ x :: l2).
Proof.
  induction a as [|y a IH]; intros b l1 l2 x E; cbn in E.
  - right. exists l1. exact E.
  - destruct l1 as [|z l1]; cbn in E; inversion E; subst.
    + left. exists a. split; reflexivity.
    + destruct (IH _ _ _ _ H1) as [(l2' & -> & ->)|(l1' & ->)].
      * left. exists l2'. split; reflexivity.
      * right. exists l1'. reflexivity.
Qed.

Lemma ext_loaded : forall W W1 n, ext (loaded W) (loaded W1) -> loaded W n <> None -> loaded W1 n <> None.
Proof. intros W W1 n X H. destruct (loaded W n) eqn:E; [|congruence]. rewrite (X _ _ E). discriminate. Qed.

Lemma run_ordered : forall f ld M p0, lookup all_modules M = Some p0 -> In M ld ->
  (forall ld W m W1, import f ld W m = OK W1 -> ordered W -> ordered W1) ->
  forall p W S W1 S1, run (import f ld) M p W S = OK (W1, S1) ->
  loaded W M = None -> ordered W ->
  (forall n, In n (early_needs p0) -> loaded W n <> None \/ In n (early_needs p)) ->
  ordered W1.
Proof.
  intros f ld M p0 Hp0 HM IHf.
  induction p as [|[ln s] p IH]; intros W S W1 S1 E N O EN; cbn [run] in E; [inversion E; subst; auto|].
  destruct (foldM (import f ld) (needs s) W) as [Wa| |] eqn:Ea; try discriminate. cbn [bind] in E.
  destruct (exec_stmt M (loaded Wa) S s) as [Sa| |] eqn:Es; try discriminate. cbn [bind] in E.
  assert (FA : ordered Wa /\ ext (loaded W) (loaded Wa) /\ loaded Wa M = None /\ forall n, In n (needs s) -> loaded Wa n <> None).
  { clear E Es EN. revert W N O Ea. induction (needs s) as [|n l IHl]; intros W N O Ea; cbn [foldM] in Ea.
    - inversion Ea; subst. split; [exact O|]. split; [apply ext_refl|]. split; [exact N|]. intros n [].
    - destruct (import f ld W n) as [Wn| |] eqn:En; try discriminate. cbn [bind] in Ea.
      assert (N' : loaded Wn M = None) by (eapply import_loading; eauto).
      destruct (IHl Wn N' (IHf _ _ _ _ En O) Ea) as (A & B & C & D).
      destruct (import_step _ _ _ _ _ En) as [ST LN].
      conjs; auto.
      + eapply ext_trans; [apply (st_ext _ _ _ ST)|exact B].
      + intros k [<-|Hk]; auto. eapply ext_loaded; eauto. }
  destruct FA as (O1 & X1 & N1 & L1).
  eapply IH; [exact E|exact N1| |].
  - (* the log after the statement *)
    intros m n EM l1 e l2 EL. cbn [w_log] in EL. cbn [w_mods].
    change (loaded (mkW (w_mods Wa) (w_log Wa ++ map (pair M) (delta S Sa)))) with (loaded Wa).
    destruct (split_app _ _ _ _ _ EL) as [(l2' & A & ->)|(l1' & A)].
    + destruct (O1 m n EM _ _ _ A) as [B C]. split; [exact B|].
      intros e' HI. apply in_app_or in HI. destruct HI as [HI|HI]; [exact (C _ HI)|].
      apply in_map_iff in HI. destruct HI as (d & HI & _). inversion HI; subst. congruence.
    + assert (HI : In (m, e) (map (pair M) (delta S Sa))) by (rewrite A; apply in_or_app; right; left; auto).
      apply in_map_iff in HI. destruct HI as (d & HI & HD). inversion HI; subst m d.
      assert (T : touches s = true).
      { destruct (touches s) eqn:T; [reflexivity|]. rewrite (untouched_log _ _ _ _ _ Es T) in HD. destruct HD. }
      destruct EM as (q & Hq & Hn). rewrite Hp0 in Hq. inversion Hq; subst q.
      assert (LN : loaded Wa n <> None).
      { destruct (EN n Hn) as [B|B]; [eapply ext_loaded; eauto|]. cbn [early_needs] in B. rewrite T in B. destruct B. }
      split; [exact LN|]. intros e' HI'.
      assert (HI2 : In (n, e') (map (pair M) (delta S Sa))) by (rewrite A; apply in_or_app; right; right; auto).
      apply in_map_iff in HI2. destruct HI2 as (d & HI2 & _). inversion HI2; subst. congruence.
  - intros n Hn. change (loaded Wa n <> None \/ In n (early_needs p)).
    destruct (EN n Hn) as [B|B]; [left; eapply ext_loaded; eauto|].
    cbn [early_needs] in B. destruct (touches s); [destruct B|].
    apply in_app_or in B. destruct B as [B|B]; [left; auto|right; auto].
Qed.

Lemma import_ordered : forall fuel ld W m W1, import fuel ld W m = OK W1 -> ordered W -> ordered W1.
Proof.
  induction fuel as [|f IH]; intros ld W m W1 E O; cbn [import] in E; [discriminate|].
  destruct (loaded W m) eqn:Em; [inversion E; subst; auto|].
  destruct (existsb (String.eqb m) ld) eqn:Ex; [discriminate|].
  destruct (lookup all_modules m) as [p|] eqn:Ep; [|discriminate].
  match type of E with bind ?y _ = _ => destruct y as [[W2 S2]| |] eqn:E2; try discriminate end.
  cbn [bind] in E. inversion E; subst W1; clear E.
  assert (O2 : ordered W2).
  { eapply (run_ordered f (m :: ld) m p Ep (or_introl eq_refl) IH); [exact E2|exact Em|exact O|]. intros n Hn. right. exact Hn. }
  assert (N2 : loaded W2 m = None) by (eapply run_loading; [exact E2|left; reflexivity|exact Em]).
  intros a b EM l1 e l2 EL. cbn [w_log] in EL. destruct (O2 a b EM _ _ _ EL) as [A B]. split; [|exact B].
  eapply ext_loaded; [|exact A]. apply lookup_tail_ext, N2.
Qed.

Lemma session_ordered : forall h W W1, foldM (import nesting []) h W = OK W1 -> ordered W -> ordered W1.
Proof.
  induction h as [|m h IH]; intros W W1 E O; cbn [foldM] in E; [inversion E; subst; auto|].
  destruct (import nesting [] W m) as [Wa| |] eqn:Ea; try discriminate. cbn [bind] in E.
  eapply IH; [exact E|]. eapply import_ordered; eauto.
Qed.
