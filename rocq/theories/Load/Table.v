(** A table of finished modules, computed in dependency order with every module
    executed once, and the proof that it predicts every import: if the table can be
    built, every import of its modules succeeds in every world, with the results in
    the table.  (Executing each module once keeps the computation short.) *)
From Coq Require Import List String ZArith NArith Bool Lia Arith.
From Verif Require Import Py.Syntax Asn1.Types Py.Eval Py.Mono Gen.All Load.Import Load.ImportFacts.
Import ListNotations.
Open Scope string_scope.
Open Scope list_scope.

Opaque all_modules exec_stmt.

(** Result of a module, the modules it needs (itself included), its import depth. *)
Record entry := mkE { e_res : modres; e_clos : list string; e_height : nat }.
Definition tbl := list (string * entry).

Definition mem (x : string) (l : list string) : bool := existsb (String.eqb x) l.
Lemma mem_iff : forall x l, mem x l = true <-> In x l.
Proof.
  intros x l. unfold mem. rewrite existsb_exists. split.
  - intros (y & A & B). apply String.eqb_eq in B. congruence.
  - intro H. exists x. split; [exact H|apply String.eqb_refl].
Qed.

Definition t_imp (T : tbl) (C : list string) (n : string) : option modres :=
  if mem n C then match lookup T n with Some e => Some (e_res e) | None => None end else None.

(** Union keeping order, without repetition. *)
Fixpoint union (a b : list string) : list string :=
  match a with [] => b | x :: a' => if mem x b then union a' b else x :: union a' b end.
Lemma union_iff : forall a b x, In x (union a b) <-> In x a \/ In x b.
Proof.
  induction a as [|y a IH]; intros b x; cbn [union]; [cbn [In]; tauto|].
  destruct (mem y b) eqn:E.
  - rewrite IH. apply mem_iff in E. cbn [In]. intuition (subst; auto).
  - cbn [In]. rewrite IH. intuition.
Qed.

(** Closure and depth after importing the modules [l]. *)
Fixpoint add_needs (T : tbl) (l : list string) (C : list string) (h : nat) : option (list string * nat) :=
  match l with
  | [] => Some (C, h)
  | n :: l' => match lookup T n with
               | Some e => add_needs T l' (union (e_clos e) C) (Nat.max h (S (e_height e)))
               | None => None
               end
  end.

Fixpoint stage (T : tbl) (M : string) (p : module) (C : list string) (h : nat) (St : state) : option entry :=
  match p with
  | [] => Some (mkE (result St) (M :: C) h)
  | (_, s) :: p' =>
      match add_needs T (needs s) C h with
      | None => None
      | Some (C', h') =>
          match exec_stmt M (t_imp T C') St s with
          | OK St' => stage T M p' C' h' St'
          | _ => None
          end
      end
  end.

Fixpoint build (order : list string) (T : tbl) : option tbl :=
  match order with
  | [] => Some T
  | m :: order' =>
      match lookup T m, lookup all_modules m with
      | None, Some p => match stage T m p [] 0 init with
                        | Some e => build order' ((m, e) :: T)
                        | None => None
                        end
      | _, _ => None
      end
  end.

(** ** Soundness *)

(** An order-insensitive description of a built table. *)
Inductive built : tbl -> Prop :=
| built_nil : built []
| built_cons m p e T : built T -> lookup T m = None -> lookup all_modules m = Some p ->
    stage T m p [] 0 init = Some e -> built ((m, e) :: T).

Lemma build_built : forall order T T', build order T = Some T' -> built T -> built T'.
Proof.
  induction order as [|m order IH]; intros T T' E B; cbn [build] in E; [inversion E; subst; exact B|].
  destruct (lookup T m) eqn:E1; [discriminate|]. destruct (lookup all_modules m) as [p|] eqn:E2; [|discriminate].
  destruct (stage T m p [] 0 init) as [e|] eqn:E3; [|discriminate].
  eapply IH; [exact E|]. econstructor; eauto.
Qed.

Lemma add_needs_facts : forall T l C h C' h', add_needs T l C h = Some (C', h') ->
  (h <= h')%nat /\ incl C C' /\
  (forall n, In n l -> exists e, lookup T n = Some e /\ incl (e_clos e) C' /\ (S (e_height e) <= h')%nat) /\
  (forall x, In x C' -> In x C \/ exists n e, In n l /\ lookup T n = Some e /\ In x (e_clos e)).
Proof.
  induction l as [|n l IH]; intros C h C' h' E; cbn [add_needs] in E.
  - inversion E; subst. split; [lia|]. split; [intros x H; exact H|]. split; [intros n []|auto].
  - destruct (lookup T n) as [e|] eqn:En; [|discriminate].
    destruct (IH _ _ _ _ E) as (A & B & D & F). split; [lia|].
    split; [intros x H; apply B, union_iff; auto|]. split.
    + intros k [<-|Hk]; [|auto]. exists e. split; [exact En|]. split; [|lia].
      intros x H. apply B, union_iff. auto.
    + intros x H. destruct (F x H) as [K|(k & e' & K1 & K2 & K3)].
      * apply union_iff in K. destruct K as [K|K]; [right; exists n, e|auto].
        split; [left; reflexivity|auto].
      * right. exists k, e'. split; [right; exact K1|auto].
Qed.

Lemma stage_facts : forall T M p C h St e, stage T M p C h St = Some e ->
  (h <= e_height e)%nat /\ incl C (e_clos e) /\ In M (e_clos e) /\
  (forall n, In n (deps p) -> exists en, lookup T n = Some en /\ incl (e_clos en) (e_clos e) /\ (S (e_height en) <= e_height e)%nat) /\
  (forall x, In x (e_clos e) -> x = M \/ In x C \/ exists n en, In n (deps p) /\ lookup T n = Some en /\ In x (e_clos en)).
Proof.
  intros T M. induction p as [|[ln s] p IH]; intros C h St e E; cbn [stage] in E.
  - inversion E; subst. cbn [e_height e_clos]. split; [lia|]. split; [intros x H; right; exact H|].
    split; [left; reflexivity|]. split; [intros n []|]. intros x [->|H]; auto.
  - destruct (add_needs T (needs s) C h) as [[C' h']|] eqn:EA; [|discriminate].
    destruct (exec_stmt M (t_imp T C') St s) as [St'| |]; try discriminate.
    destruct (add_needs_facts _ _ _ _ _ _ EA) as (A & B & D & F).
    destruct (IH _ _ _ _ E) as (A' & B' & M' & D' & F').
    split; [lia|]. split; [intros x H; apply B', B, H|]. split; [exact M'|]. split.
    + intros n Hn. unfold deps in Hn. cbn [flat_map snd] in Hn. apply in_app_or in Hn. destruct Hn as [Hn|Hn].
      * destruct (D n Hn) as (en & X & Y & Z). exists en. split; [exact X|]. split; [intros x H; apply B', Y, H|lia].
      * exact (D' n Hn).
    + intros x H. destruct (F' x H) as [K|[K|(n & en & K1 & K2 & K3)]]; [auto| |].
      * destruct (F x K) as [L|(n & en & L1 & L2 & L3)]; [auto|]. right; right. exists n, en.
        split; [|auto]. unfold deps. cbn [flat_map]. apply in_or_app. auto.
      * right; right. exists n, en. split; [|auto]. unfold deps. cbn [flat_map]. apply in_or_app. auto.
Qed.

Definition modres_of (T : tbl) : list (string * modres) := map (fun me => (fst me, e_res (snd me))) T.
Lemma lookup_modres : forall T m, lookup (modres_of T) m = match lookup T m with Some e => Some (e_res e) | None => None end.
Proof.
  induction T as [|[x e] T IH]; intro m; cbn [modres_of map lookup fst snd]; [reflexivity|].
  destruct (String.eqb m x); [reflexivity|]. apply IH.
Qed.
Lemma t_imp_ext : forall T C, ext (t_imp T C) (lookup (modres_of T)).
Proof.
  intros T C n R E. unfold t_imp in E. destruct (mem n C); [|discriminate]. rewrite lookup_modres. exact E.
Qed.

Lemma stage_pure : forall T M p C h St e i, stage T M p C h St = Some e ->
  (forall C', incl C' (e_clos e) -> ext (t_imp T C') i) -> (forall x, In x C -> In x (e_clos e)) ->
  exists St', exec_pure M i p St = OK St' /\ e_res e = result St'.
Proof.
  intros T M. induction p as [|[ln s] p IH]; intros C h St e i E X I; cbn [stage] in E.
  - inversion E; subst. exists St. split; reflexivity.
  - destruct (add_needs T (needs s) C h) as [[C' h']|] eqn:EA; [|discriminate].
    destruct (exec_stmt M (t_imp T C') St s) as [St'| |] eqn:ES; try discriminate.
    destruct (stage_facts _ _ _ _ _ _ _ E) as (_ & I' & _).
    destruct (IH _ _ _ _ i E X I') as (St2 & A & B).
    exists St2. split; [|exact B]. unfold exec_pure. cbn [foldM snd].
    rewrite (exec_stmt_mono M _ _ (X C' I') St s _ ES). cbn [bind]. exact A.
Qed.

Lemma built_good : forall T, built T -> good (modres_of T).
Proof.
  induction 1 as [|m p e T B IH N P S]; [constructor|].
  cbn [modres_of map fst snd].
  destruct (stage_pure _ _ _ _ _ _ _ (lookup (modres_of T)) S) as (St & A & R).
  { intros C' _. apply t_imp_ext. }
  { intros x []. }
  destruct (stage_facts _ _ _ _ _ _ _ S) as (_ & _ & _ & D & _).
  rewrite R. eapply good_cons; [exact IH| |exact P|exact A|].
  - rewrite lookup_modres, N. reflexivity.
  - intros n Hn. destruct (D n Hn) as (en & X & _). rewrite lookup_modres, X. discriminate.
Qed.

(** Entry of a built table: the stage that produced it, over an earlier table. *)
Lemma built_entry : forall T, built T -> forall m e, lookup T m = Some e ->
  exists T0 p, built T0 /\ lookup T0 m = None /\ lookup all_modules m = Some p /\
    stage T0 m p [] 0 init = Some e /\ (forall n en, lookup T0 n = Some en -> lookup T n = Some en).
Proof.
  induction 1 as [|m0 p e0 T B IH N P S]; intros m e E; [discriminate|]. cbn [lookup] in E.
  assert (X : forall n en, lookup T n = Some en -> lookup ((m0, e0) :: T) n = Some en).
  { intros n en H. cbn [lookup]. destruct (String.eqb n m0) eqn:Q; [|exact H]. apply String.eqb_eq in Q. congruence. }
  destruct (String.eqb m m0) eqn:Q.
  - apply String.eqb_eq in Q. inversion E; subst. exists T, p. auto.
  - destruct (IH _ _ E) as (T0 & p' & A1 & A2 & A3 & A4 & A5). exists T0, p'. auto 10.
Qed.

Lemma clos_in : forall T, built T -> forall m e, lookup T m = Some e -> forall x, In x (e_clos e) -> lookup T x <> None.
Proof.
  induction 1 as [|m0 p e0 T B IH N P S]; intros m e E x Hx; [discriminate|]. cbn [lookup] in E |- *.
  destruct (String.eqb x m0) eqn:Qx; [discriminate|].
  destruct (String.eqb m m0) eqn:Q; [|exact (IH _ _ E _ Hx)].
  inversion E; subst e0. destruct (stage_facts _ _ _ _ _ _ _ S) as (_ & _ & _ & _ & F).
  destruct (F x Hx) as [->|[[]|(n & en & K1 & K2 & K3)]]; [rewrite String.eqb_refl in Qx; discriminate|].
  exact (IH _ _ K2 _ K3).
Qed.

Lemma clos_reach : forall T, built T -> forall m e, lookup T m = Some e -> forall x, In x (e_clos e) <-> reach m x.
Proof.
  induction 1 as [|m0 p e0 T B IH N P S]; intros m e E x; [discriminate|]. cbn [lookup] in E.
  destruct (String.eqb m m0) eqn:Q; [|exact (IH _ _ E _)].
  apply String.eqb_eq in Q. subst m0. inversion E; subst e0. clear E.
  destruct (stage_facts _ _ _ _ _ _ _ S) as (_ & _ & MM & D & F). split.
  - intro Hx. destruct (F x Hx) as [->|[[]|(n & en & K1 & K2 & K3)]]; [constructor|].
    eapply reach_step; [exact P|exact K1|]. apply (IH _ _ K2). exact K3.
  - intro R. inversion R as [|m' p' n k P' Hn R']; subst; [exact MM|].
    rewrite P in P'. inversion P'; subst p'. destruct (D n Hn) as (en & K1 & K2 & _).
    apply K2. apply (IH _ _ K1). exact R'.
Qed.

Lemma import_table : forall T, built T -> forall fuel m e ld W, lookup T m = Some e ->
  (e_height e < fuel)%nat -> good (w_mods W) ->
  (forall x, In x ld -> loaded W x = None /\ ~ In x (e_clos e)) ->
  exists W1, import fuel ld W m = OK W1.
Proof.
  intros T B. pose proof (built_good _ B) as GT.
  induction fuel as [|f IH]; intros m e ld W E Hf G HL; [lia|]. cbn [import].
  destruct (loaded W m) as [R|] eqn:EW; [eauto|].
  destruct (built_entry _ B _ _ E) as (T0 & p & B0 & N0 & P & ST & X0).
  pose proof (stage_facts _ _ _ _ _ _ _ ST) as (_ & _ & MM & _).
  assert (EX : existsb (String.eqb m) ld = false).
  { destruct (existsb (String.eqb m) ld) eqn:Q; [|reflexivity]. change (mem m ld = true) in Q.
    apply mem_iff in Q. destruct (HL m Q) as [_ K]. contradiction. }
  rewrite EX, P.
  assert (RUN : forall p C h St W, stage T0 m p C h St = Some e -> good (w_mods W) ->
    (forall x, In x C -> loaded W x <> None) ->
    (forall x, In x (m :: ld) -> loaded W x = None) ->
    exists W2 S2, run (import f (m :: ld)) m p W St = OK (W2, S2)).
  { assert (DIS : forall n en, lookup T0 n = Some en -> incl (e_clos en) (e_clos e) ->
        forall x, In x (m :: ld) -> ~ In x (e_clos en)).
    { intros n en Hn Hi x [<-|Hx] K.
      - apply (clos_in _ B0 _ _ Hn _ K N0).
      - destruct (HL x Hx) as [_ Q]. apply Q, Hi, K. }
    clear ST P EX EW HL MM. intro q. induction q as [|[ln s] q IHq]; intros C h St W0 ST GW HC HN; cbn [run].
    - eauto.
    - cbn [stage] in ST. destruct (add_needs T0 (needs s) C h) as [[C' h']|] eqn:EA; [|discriminate].
      destruct (exec_stmt m (t_imp T0 C') St s) as [St'| |] eqn:ES; try discriminate.
      destruct (add_needs_facts _ _ _ _ _ _ EA) as (_ & IC & D & F).
      destruct (stage_facts _ _ _ _ _ _ _ ST) as (HH & IC' & _).
      assert (FOLD : forall l W0, incl l (needs s) -> good (w_mods W0) -> (forall x, In x (m :: ld) -> loaded W0 x = None) ->
        exists Wa, foldM (import f (m :: ld)) l W0 = OK Wa /\ good (w_mods Wa) /\ ext (loaded W0) (loaded Wa) /\
          (forall n, In n l -> loaded Wa n <> None) /\ (forall x, In x (m :: ld) -> loaded Wa x = None)).
      { intro l. induction l as [|n l IHl]; intros Wx Hl Gx Nx; cbn [foldM].
        - exists Wx. split; [reflexivity|]. split; [exact Gx|]. split; [apply ext_refl|]. split; [intros n []|exact Nx].
        - destruct (D n (Hl n (or_introl eq_refl))) as (en & K1 & K2 & K3).
          assert (KI : incl (e_clos en) (e_clos e)) by (intros x Hx; apply IC', K2, Hx).
          destruct (IH n en (m :: ld) Wx (X0 _ _ K1)) as [Wn En]; [lia|exact Gx| |].
          { intros x Hx. split; [apply Nx, Hx|]. exact (DIS n en K1 KI x Hx). }
          rewrite En. cbn [bind]. destruct (import_step _ _ _ _ _ En) as [SS LN].
          destruct (IHl Wn) as (Wa & A1 & A2 & A3 & A4 & A5).
          { intros x Hx. apply Hl. right; exact Hx. }
          { apply (st_good _ _ _ SS), Gx. }
          { intros x Hx. eapply import_loading; eauto. }
          exists Wa. split; [exact A1|]. split; [exact A2|].
          split; [eapply ext_trans; [apply (st_ext _ _ _ SS)|exact A3]|]. split; [|exact A5].
          intros k [<-|Hk]; [eapply ext_loaded; eauto|auto]. }
      destruct (FOLD (needs s) W0 (fun x H => H) GW HN) as (Wa & A1 & A2 & A3 & A4 & A5).
      rewrite A1. cbn [bind].
      assert (HC' : forall x, In x C' -> loaded Wa x <> None).
      { intros x Hx. destruct (F x Hx) as [K|(n & en & K1 & K2 & K3)]; [eapply ext_loaded; eauto|].
        eapply (good_closed (w_mods Wa) A2 n x); [apply (clos_reach _ B0 _ _ K2), K3|exact (A4 n K1)]. }
      assert (XT : ext (t_imp T0 C') (loaded Wa)).
      { intros n R En. unfold t_imp in En. destruct (mem n C') eqn:EM; [|discriminate].
        apply mem_iff in EM. destruct (lookup T0 n) as [en|] eqn:E1; [|discriminate]. inversion En; subst R.
        destruct (loaded Wa n) as [R|] eqn:E2; [|exfalso; exact (HC' n EM E2)]. f_equal. symmetry.
        apply (good_agree _ (built_good _ B0) _ A2 n (e_res en) R); [|exact E2].
        rewrite lookup_modres, E1. reflexivity. }
      rewrite (exec_stmt_mono m _ _ XT St s _ ES). cbn [bind].
      eapply (IHq C' h' St'); [exact ST|exact A2|exact HC'|exact A5]. }
  destruct (RUN p [] 0%nat init W ST G) as (W2 & S2 & E2).
  { intros x []. }
  { intros x [<-|Hx]; [exact EW|exact (proj1 (HL x Hx))]. }
  rewrite E2. cbn [bind]. eauto.
Qed.

Lemma session_table : forall T, built T -> (forall m e, In (m, e) T -> (e_height e < nesting)%nat) ->
  (forall m, In m (map fst all_modules) -> lookup T m <> None) ->
  forall h W, good (w_mods W) -> (forall m, In m h -> In m (map fst all_modules)) ->
  exists W1, foldM (import nesting []) h W = OK W1.
Proof.
  intros T B HH HT. induction h as [|m h IH]; intros W G Hh; [eexists; reflexivity|].
  specialize (HT m (Hh m (or_introl eq_refl))). destruct (lookup T m) as [e|] eqn:E; [|congruence].
  destruct (import_table T B nesting m e [] W E) as [W1 E1].
  - apply (HH m). clear -E. induction T as [|[x q] T IH]; cbn [lookup] in E; [discriminate|].
    destruct (String.eqb m x) eqn:Q; [apply String.eqb_eq in Q; left; congruence|right; auto].
  - exact G.
  - intros x [].
  - cbn [foldM]. rewrite E1. cbn [bind]. apply IH.
    + apply import_step in E1. apply (st_good _ _ _ (proj1 E1)), G.
    + intros k Hk. apply Hh. right; exact Hk.
Qed.
