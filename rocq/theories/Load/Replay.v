(** Sessions computed from the table of finished modules instead of by executing every
    module again; proved to be the sessions themselves. *)
From Coq Require Import List String ZArith NArith Bool Lia.
From Verif Require Import Py.Syntax Asn1.Types Py.Eval Py.Mono Asn1.EqbFacts Gen.All
  Load.Import Load.ImportFacts Load.Table Load.Computed Load.Registry Load.Session.
Import ListNotations.
Open Scope string_scope.
Open Scope list_scope.

Opaque all_modules T nesting.

(** Nothing is imported after the first statement that may touch a registry. *)
Fixpoint same (a b : list string) : bool :=
  match a, b with
  | [], [] => true
  | x :: a', y :: b' => if String.eqb x y then same a' b' else false
  | _, _ => false
  end.
Lemma same_eq : forall a b, same a b = true -> a = b.
Proof.
  induction a as [|x a IH]; intros [|y b] H; cbn [same] in H; try discriminate; [reflexivity|].
  destruct (String.eqb x y) eqn:E; [|discriminate]. apply String.eqb_eq in E. f_equal; auto.
Qed.
Definition tidy (p : module) : bool := same (early_needs p) (deps p).

Fixpoint replay (T : tbl) (fuel : nat) (loading : list string) (W : world) (m : string) : r world :=
  match fuel with
  | O => Stuck "import nesting"
  | S f =>
      match loaded W m with
      | Some _ => OK W
      | None =>
          match lookup all_modules m, lookup T m with
          | Some p, Some e =>
              if tidy p
              then do W' <- foldM (replay T f (m :: loading)) (deps p) W;
                   OK (mkW ((m, e_res e) :: w_mods W') (w_log W' ++ map (pair m) (m_log (e_res e))))
              else import (S f) loading W m
          | _, _ => import (S f) loading W m
          end
      end
  end.
Definition replay_session (T : tbl) (h : list string) : r world := foldM (replay T nesting []) h empty.

Lemma world_eta : forall W, mkW (w_mods W) (w_log W ++ []) = W.
Proof. intros [a b]. cbn [w_mods w_log]. rewrite app_nil_r. reflexivity. Qed.

Lemma deltas : forall S S' S1, s_log S' = s_log S ++ delta S S' -> s_log S1 = s_log S' ++ delta S' S1 ->
  delta S S1 = delta S S' ++ delta S' S1 /\ s_log S1 = s_log S ++ delta S S1.
Proof.
  intros S S' S1 A B. assert (C : s_log S1 = s_log S ++ (delta S S' ++ delta S' S1)) by (rewrite B, A at 1; rewrite <- app_assoc; reflexivity).
  assert (D : delta S S1 = delta S S' ++ delta S' S1).
  { unfold delta at 1. rewrite C. rewrite skipn_app, skipn_all, PeanoNat.Nat.sub_diag. reflexivity. }
  split; [exact D|]. rewrite D. exact C.
Qed.

Lemma run_alone : forall imp1 M p W S W1 S1, run imp1 M p W S = OK (W1, S1) -> deps p = [] ->
  w_mods W1 = w_mods W /\ w_log W1 = w_log W ++ map (pair M) (delta S S1) /\ s_log S1 = s_log S ++ delta S S1.
Proof.
  intros imp1 M. induction p as [|[n s] p IH]; intros W S W1 S1 E D.
  - cbn [run] in E. inversion E; subst. assert (Z : delta S1 S1 = []) by (unfold delta; apply skipn_all).
    rewrite Z. cbn [map]. rewrite !app_nil_r. auto.
  - cbn [run] in E. unfold deps in D. cbn [flat_map snd] in D. apply app_eq_nil in D. destruct D as [D1 D2].
    rewrite D1 in E. cbn [foldM bind] in E.
    destruct (exec_stmt M (loaded W) S s) as [S'| |] eqn:ES; [|discriminate|discriminate]. cbn [bind] in E.
    pose proof (exec_stmt_log _ _ _ _ _ ES) as L. destruct (IH _ _ _ _ E D2) as (A & B & C). cbn [w_mods w_log] in A, B.
    destruct (deltas _ _ _ L C) as [X Y]. split; [exact A|]. split; [|exact Y]. rewrite B, X, map_app, app_assoc. reflexivity.
Qed.

Lemma run_tidy : forall imp1 M p W S W1 S1, run imp1 M p W S = OK (W1, S1) -> early_needs p = deps p ->
  exists W', foldM imp1 (deps p) W = OK W' /\ w_mods W1 = w_mods W' /\ w_log W1 = w_log W' ++ map (pair M) (delta S S1)
    /\ s_log S1 = s_log S ++ delta S S1.
Proof.
  intros imp1 M. induction p as [|[n s] p IH]; intros W S W1 S1 E D.
  - exists W. split; [reflexivity|]. apply (run_alone imp1 M [] W S W1 S1 E eq_refl).
  - cbn [early_needs] in D. destruct (touches s) eqn:TS.
    + exists W. rewrite <- D. split; [reflexivity|]. apply (run_alone imp1 M _ W S W1 S1 E (eq_sym D)).
    + change (deps ((n, s) :: p)) with (needs s ++ deps p) in *. apply app_inv_head in D.
      cbn [run] in E. destruct (foldM imp1 (needs s) W) as [Wa| |] eqn:EN; [|discriminate|discriminate]. cbn [bind] in E.
      destruct (exec_stmt M (loaded Wa) S s) as [S'| |] eqn:ES; [|discriminate|discriminate]. cbn [bind] in E.
      pose proof (untouched_log _ _ _ _ _ ES TS) as U. rewrite U in E. cbn [map] in E. rewrite world_eta in E.
      pose proof (exec_stmt_log _ _ _ _ _ ES) as L. destruct (IH _ _ _ _ E D) as (W' & A & B & C & F).
      destruct (deltas _ _ _ L F) as [X Y]. rewrite U in X. cbn [app] in X. exists W'. rewrite foldM_app, EN. cbn [bind].
      split; [exact A|]. split; [exact B|]. split; [rewrite X; exact C|exact Y].
Qed.

Lemma foldM_same : forall (f g : world -> string -> r world),
  (forall W m W1, f W m = OK W1 -> good (w_mods W) -> g W m = OK W1 /\ good (w_mods W1)) ->
  forall l W W1, foldM f l W = OK W1 -> good (w_mods W) -> foldM g l W = OK W1 /\ good (w_mods W1).
Proof.
  intros f g H. induction l as [|m l IH]; intros W W1 E G; cbn [foldM] in *; [inversion E; subst; auto|].
  destruct (f W m) as [Wa| |] eqn:Ea; [|discriminate|discriminate]. cbn [bind] in E.
  destruct (H _ _ _ Ea G) as [Eg Gg]. rewrite Eg. cbn [bind]. exact (IH _ _ E Gg).
Qed.

Lemma replay_import : forall t, good (modres_of t) -> forall f ld W m W1, import f ld W m = OK W1 -> good (w_mods W) ->
  replay t f ld W m = OK W1 /\ good (w_mods W1).
Proof.
  intros t GT. induction f as [|f IH]; intros ld W m W1 E G; [discriminate E|].
  pose proof (st_good _ _ _ (proj1 (import_step _ _ _ _ _ E)) G) as G1.
  split; [|exact G1]. cbn [replay]. destruct (loaded W m) as [R|] eqn:EL.
  - cbn [import] in E. rewrite EL in E. exact E.
  - destruct (lookup all_modules m) as [p|] eqn:EP; [|exact E]. destruct (lookup t m) as [e|] eqn:ET; [|exact E].
    destruct (tidy p) eqn:TP; [|exact E]. apply same_eq in TP.
    cbn [import] in E. rewrite EL, EP in E. destruct (existsb (String.eqb m) ld); [discriminate E|].
    destruct (run (import f (m :: ld)) m p W init) as [[W2 S2]| |] eqn:ER; [|discriminate E|discriminate E].
    cbn [bind] in E. assert (Z : W1 = mkW ((m, result S2) :: w_mods W2) (w_log W2)) by congruence.
    destruct (run_tidy _ _ _ _ _ _ _ ER TP) as (W' & A & B & C & F).
    destruct (foldM_same (import f (m :: ld)) (replay t f (m :: ld)) (fun Wx mx Wy Ex Gx => IH (m :: ld) Wx mx Wy Ex Gx) (deps p) W W' A G) as [A' _].
    rewrite A'. cbn [bind].
    assert (RS : e_res e = result S2).
    { assert (LT : lookup (modres_of t) m = Some (e_res e)) by (rewrite lookup_modres, ET; reflexivity).
      assert (LW : lookup (w_mods W1) m = Some (result S2)) by (rewrite Z; cbn [w_mods lookup]; rewrite String.eqb_refl; reflexivity).
      exact (good_agree _ GT _ G1 _ _ _ LT LW). }
    rewrite RS, Z, <- B, C. cbn [result m_log]. rewrite F. reflexivity.
Qed.

Theorem replay_is : forall t, good (modres_of t) -> forall h W, session h = OK W -> replay_session t h = OK W.
Proof.
  intros t GT h W E. unfold session in E. unfold replay_session.
  apply (foldM_same (import nesting []) (replay t nesting []) (replay_import t GT nesting [])) in E; [apply E|exact good_empty].
Qed.

(** So a check over sessions of named modules may be computed by replaying them. *)
Definition named (h : list string) : bool := forallb (fun m => mem m module_names) h.
Theorem session_replayed : forall h, named h = true -> session h = replay_session T h.
Proof.
  intros h N. destruct (session_ok h) as [W E].
  - intros m Hm. unfold named in N. rewrite forallb_forall in N. apply mem_iff. exact (N m Hm).
  - rewrite E. symmetry. exact (replay_is T T_good h W E).
Qed.
