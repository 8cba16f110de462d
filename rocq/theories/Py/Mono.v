(** Executing a statement depends on other modules only through the ones it can
    see: if it succeeds, it gives the same result when more modules are loaded. *)
From Coq Require Import List String ZArith NArith Bool Lia.
From Verif Require Import Py.Syntax Asn1.Types Py.Eval.
Import ListNotations.
Open Scope string_scope.
Open Scope list_scope.

Definition ext (i j : string -> option modres) : Prop := forall m R, i m = Some R -> j m = Some R.

Lemma ext_refl : forall i, ext i i.
Proof. intros i m R H; exact H. Qed.
Lemma ext_trans : forall i j k, ext i j -> ext j k -> ext i k.
Proof. intros i j k H K m R E; auto. Qed.

Definition env_ext (E F : env) : Prop :=
  e_mod E = e_mod F /\ e_loc E = e_loc F /\ e_ns E = e_ns F /\ e_cls E = e_cls F /\ ext (e_imp E) (e_imp F).

(** [x] is at most as defined as [y]. *)
Definition le {A} (x y : r A) : Prop := forall a, x = OK a -> y = OK a.

Lemma le_refl {A} (x : r A) : le x x. Proof. intros a H; exact H. Qed.
Lemma le_bind {A B} (x y : r A) (f g : A -> r B) :
  le x y -> (forall a, le (f a) (g a)) -> le (bind x f) (bind y g).
Proof.
  intros H K b. destruct x as [a| |]; simpl; intro E; try discriminate.
  rewrite (H a eq_refl). simpl. apply K, E.
Qed.
Lemma le_stuck {A} (y : r A) s : le (Stuck s) y. Proof. intros a H; discriminate. Qed.
Lemma le_raise {A} (y : r A) s : le (Raise s) y. Proof. intros a H; discriminate. Qed.
Ltac same := match goal with |- le ?x ?y => constr_eq x y; exact (le_refl x) end.
#[global] Hint Extern 1 (le _ _) => same : mono.
#[global] Hint Extern 1 (le (Stuck _) _) => apply le_stuck : mono.
#[global] Hint Extern 1 (le (Raise _) _) => apply le_raise : mono.

(** ** Induction principles for the syntax *)
Section expr_ind2.
  Variable P : expr -> Prop.
  Hypothesis H1 : forall x, P (EName x).
  Hypothesis H2 : forall e a, P e -> P (EAttr e a).
  Hypothesis H3 : forall f args kw, P f -> Forall P args -> Forall (fun p => P (snd p)) kw -> P (ECall f args kw).
  Hypothesis H4 : forall e, P e -> P (EStar e).
  Hypothesis H5 : forall z, P (EInt z).
  Hypothesis H6 : forall s, P (EStr s).
  Hypothesis H7 : forall b, P (EBool b).
  Hypothesis H8 : forall es, Forall P es -> P (ETuple es).
  Hypothesis H9 : forall es, Forall P es -> P (EList es).
  Hypothesis H10 : forall kvs, P (EDict kvs).
  Hypothesis H11 : forall e i, P (ESub e i).
  Hypothesis H12 : forall o a b, P a -> P b -> P (EBin o a b).
  Hypothesis H13 : forall e, P e -> P (ENeg e).
  Fixpoint expr_ind2 (e : expr) : P e :=
    let fix go (l : list expr) : Forall P l :=
      match l with [] => Forall_nil _ | x :: l' => Forall_cons x (expr_ind2 x) (go l') end in
    match e with
    | EName x => H1 x
    | EAttr e a => H2 e a (expr_ind2 e)
    | ECall f args kw =>
        H3 f args kw (expr_ind2 f) (go args)
           ((fix gk (l : list (string * expr)) : Forall (fun p => P (snd p)) l :=
               match l with
               | [] => Forall_nil _
               | (k, x) :: l' => Forall_cons (P := fun p => P (snd p)) (k, x) (expr_ind2 x) (gk l')
               end) kw)
    | EStar e => H4 e (expr_ind2 e)
    | EInt z => H5 z
    | EStr s => H6 s
    | EBool b => H7 b
    | ETuple es => H8 es (go es)
    | EList es => H9 es (go es)
    | EDict kvs => H10 kvs
    | ESub e i => H11 e i
    | EBin o a b => H12 o a b (expr_ind2 a) (expr_ind2 b)
    | ENeg e => H13 e (expr_ind2 e)
    end.
End expr_ind2.

Section stmt_ind2.
  Variable P : stmt -> Prop.
  Hypothesis H0 : forall s, (match s with SFor _ _ _ | SIf _ _ _ => False | _ => True end) -> P s.
  Hypothesis H1 : forall x e b, Forall P b -> P (SFor x e b).
  Hypothesis H2 : forall c a b, Forall P a -> Forall P b -> P (SIf c a b).
  Fixpoint stmt_ind2 (s : stmt) : P s :=
    let fix go (l : list stmt) : Forall P l :=
      match l with [] => Forall_nil _ | x :: l' => Forall_cons x (stmt_ind2 x) (go l') end in
    match s as s return P s with
    | SFor x e b => H1 x e b (go b)
    | SIf c a b => H2 c a b (go a) (go b)
    | SImport m => H0 (SImport m) I
    | SFrom m n => H0 (SFrom m n) I
    | SFromStar m => H0 (SFromStar m) I
    | SAssign t v => H0 (SAssign t v) I
    | SExpr e => H0 (SExpr e) I
    | SPass => H0 SPass I
    | SClass n b l => H0 (SClass n b l) I
    | SDef n ps va b => H0 (SDef n ps va b) I
    | SReturn e => H0 (SReturn e) I
    end.
End stmt_ind2.

Opaque depth.

(** ** Classes *)

Lemma find_class_mono : forall E F m n d, env_ext E F -> find_class E m n = Some d -> find_class F m n = Some d.
Proof.
  intros E F m n d (Hm & _ & _ & Hc & Hi). unfold find_class. rewrite <- Hm, <- Hc.
  destruct (String.eqb m (e_mod E)); auto.
  destruct (e_imp E m) eqn:EI; [|discriminate]. rewrite (Hi _ _ EI). auto.
Qed.

Lemma class_attr_mono : forall fuel E F c a v, env_ext E F ->
  class_attr fuel E c a = Some v -> class_attr fuel F c a = Some v.
Proof.
  induction fuel as [|n IH]; intros E F c a v H; cbn [class_attr]; [discriminate|].
  destruct c as [b|m x]; auto.
  destruct (find_class E m x) eqn:EC; [|discriminate].
  rewrite (find_class_mono _ _ _ _ _ H EC).
  destruct (lookup (c_attrs c) a); auto. apply IH, H.
Qed.

Lemma class_root_mono : forall fuel E F c v, env_ext E F ->
  class_root fuel E c = Some v -> class_root fuel F c = Some v.
Proof.
  induction fuel as [|n IH]; intros E F c v H; cbn [class_root]; [discriminate|].
  destruct c as [b|m x]; auto.
  destruct (find_class E m x) eqn:EC; [|discriminate].
  rewrite (find_class_mono _ _ _ _ _ H EC). apply IH, H.
Qed.

(** When the whole base chain is visible, lookups do not depend on anything else. *)
Lemma class_attr_root : forall fuel E F c a v, env_ext E F ->
  class_root fuel E c = Some v -> class_attr fuel F c a = class_attr fuel E c a.
Proof.
  induction fuel as [|n IH]; intros E F c a v H; cbn [class_root class_attr]; [discriminate|].
  destruct c as [b|m x]; auto.
  destruct (find_class E m x) eqn:EC; [|discriminate].
  rewrite (find_class_mono _ _ _ _ _ H EC). intro R.
  destruct (lookup (c_attrs c) a); auto. eapply IH; eauto.
Qed.

Lemma instantiate_mono : forall E F c args kw, env_ext E F -> le (instantiate E c args kw) (instantiate F c args kw).
Proof.
  intros E F c args kw H. unfold instantiate.
  destruct (class_root depth E c) as [root|] eqn:ER; [|apply le_stuck].
  rewrite (class_root_mono _ _ _ _ _ H ER).
  pose proof (fun a => class_attr_root _ _ _ _ a _ H ER) as K.
  rewrite (K "__init__"), (K "tagSet"), (K "subtypeSpec"), (K "namedValues"), (K "defaultValue"),
    (K "sizeSpec"), (K "componentType").
  same.
Qed.

(** ** Expressions *)

Lemma get_attr_mono : forall E F v a, env_ext E F -> le (get_attr E v a) (get_attr F v a).
Proof.
  intros E F v a H. unfold get_attr. destruct v; try same.
  - destruct (e_imp E m) eqn:EI; [|apply le_stuck].
    destruct H as (_ & _ & _ & _ & Hi). rewrite (Hi _ _ EI). same.
  - destruct (class_attr depth E c a) eqn:EA; [|apply le_stuck].
    rewrite (class_attr_mono _ _ _ _ _ _ H EA). same.
Qed.

Lemma lookup_name_mono : forall E F x, env_ext E F -> le (lookup_name E x) (lookup_name F x).
Proof. intros E F x (_ & Hl & Hn & _ & _). unfold lookup_name. rewrite Hl, Hn. same. Qed.

Lemma apply_val_mono : forall (c d : pyval -> list pyval -> ns -> r pyval) E F f args kw,
  env_ext E F -> (forall f a k, le (c f a k) (d f a k)) ->
  le (apply_val c E f args kw) (apply_val d F f args kw).
Proof.
  intros c d E F f args kw H Hc. destruct f; cbn [apply_val]; auto with mono.
  apply instantiate_mono, H.
Qed.

Definition args_of (c : pyval -> list pyval -> ns -> r pyval) (E : env) :=
  fix go (es : list expr) : r (list pyval) :=
    match es with
    | [] => OK []
    | EStar e :: es' =>
        do v <- eval c E e; do vs <- go es';
        match v with PTuple l | PList l => OK (l ++ vs) | _ => Stuck "starred argument" end
    | e :: es' => do v <- eval c E e; do vs <- go es'; OK (v :: vs)
    end.
Definition list_of (c : pyval -> list pyval -> ns -> r pyval) (E : env) :=
  fix go (es : list expr) : r (list pyval) :=
    match es with [] => OK [] | e :: es' => do v <- eval c E e; do vs <- go es'; OK (v :: vs) end.

Lemma eval_mono : forall (c d : pyval -> list pyval -> ns -> r pyval) E F e,
  env_ext E F -> (forall f a k, le (c f a k) (d f a k)) -> le (eval c E e) (eval d F e).
Proof.
  intros c d E F e H Hc.
  assert (Q : le (eval c E e) (eval d F e)
              /\ match e with EStar e' => le (eval c E e') (eval d F e') | _ => True end).
  2: apply Q.
  assert (L : forall es, Forall (fun e => le (eval c E e) (eval d F e)
              /\ match e with EStar e' => le (eval c E e') (eval d F e') | _ => True end) es ->
              le (list_of c E es) (list_of d F es)).
  { induction 1 as [|e0 es [He _] _ IH]; [apply le_refl|].
    cbn [list_of]. apply le_bind; auto. intro v. apply le_bind; auto with mono. }
  induction e as [x|e a IH|f args kw IHf IHa IHk|e IH|z|s|b|es IH|es IH|kvs|e i|o a b IHa IHb|e IH] using expr_ind2;
    (split; [|try exact I]); cbn [eval]; auto with mono.
  - apply lookup_name_mono, H.
  - apply le_bind; [apply IH|]. intro v. apply get_attr_mono, H.
  - apply le_bind; [apply IHf|]. intro fv.
    apply le_bind; [|intro avs; apply le_bind; [|intro kvs; apply apply_val_mono; auto]].
    + change (le (args_of c E args) (args_of d F args)).
      induction IHa as [|e es [He Hs] _ IHes]; [apply le_refl|].
      destruct e; try (cbn [args_of]; apply le_bind; [exact He|]; intro v; apply le_bind; auto with mono; fail).
      cbn [args_of]. apply le_bind; [exact Hs|]. intro v. apply le_bind; auto with mono.
    + induction IHk as [|[k e] kw' [He _] _ IHkw]; [apply le_refl|].
      apply le_bind; auto. intro v. apply le_bind; auto with mono.
  - apply IH.
  - apply le_bind; [exact (L es IH)|auto with mono].
  - apply le_bind; [exact (L es IH)|auto with mono].
  - apply le_bind; [apply IHa|]. intro x. apply le_bind; [apply IHb|]. auto with mono.
  - apply le_bind; [apply IH|]. auto with mono.
Qed.

(** ** Function bodies *)

Lemma with_loc_ext : forall E F l, env_ext E F -> env_ext (with_loc E l) (with_loc F l).
Proof. intros E F l (A & B & C & D & G). repeat split; auto. Qed.

Lemma eval_nc_mono : forall E F e, env_ext E F -> le (eval no_call E e) (eval no_call F e).
Proof. intros. apply eval_mono; auto with mono. Qed.

Lemma exec_fun_mono : forall E F, env_ext E F -> forall s l, le (exec_fun E s l) (exec_fun F s l).
Proof.
  intros E F H s.
  assert (B : forall b, Forall (fun s => forall l, le (exec_fun E s l) (exec_fun F s l)) b ->
              forall l, le (exec_body E b l) (exec_body F b l)).
  { induction 1 as [|s0 b Hs _ IH]; intro l; [apply le_refl|].
    cbn [exec_body]. apply le_bind; auto. intros [l'|v]; auto with mono. }
  induction s as [s Hs|x e b IH|c a b IHa IHb] using stmt_ind2; intro l.
  - destruct s; try destruct Hs; cbn [exec_fun]; auto with mono.
    + destruct targets as [|[] [|]]; auto with mono.
      apply le_bind; [apply eval_nc_mono, with_loc_ext, H|]. auto with mono.
    + destruct e as [| |f args kw| | | | | | | | | |]; auto with mono.
      destruct f as [|f m| | | | | | | | | | |]; auto with mono.
      destruct f; auto with mono.
      destruct args as [|a0 [|]]; auto with mono. destruct kw; auto with mono.
      apply le_bind; [apply eval_nc_mono, with_loc_ext, H|]. auto with mono.
    + apply le_bind; [apply eval_nc_mono, with_loc_ext, H|]. auto with mono.
  - cbn [exec_fun]. apply le_bind; [apply eval_nc_mono, with_loc_ext, H|].
    specialize (B b IH).
    intros []; auto with mono.
    + revert l. induction l0 as [|v vs IHv]; intro l; auto with mono.
      apply le_bind; [apply B|]. intros [|]; auto with mono.
    + revert l. induction l0 as [|v vs IHv]; intro l; auto with mono.
      apply le_bind; [apply B|]. intros [|]; auto with mono.
  - cbn [exec_fun]. apply le_bind; [apply eval_nc_mono, with_loc_ext, H|]. intro v.
    apply le_bind; auto with mono. intros [|]; [apply (B a IHa)|apply (B b IHb)].
Qed.

Lemma exec_body_mono : forall E F, env_ext E F -> forall b l, le (exec_body E b l) (exec_body F b l).
Proof.
  intros E F H. induction b as [|s b IH]; intro l; [apply le_refl|].
  cbn [exec_body]. apply le_bind; [apply exec_fun_mono, H|]. intros [|]; auto with mono.
Qed.

Lemma call_fun_mono : forall E F f a k, env_ext E F -> le (call_fun E f a k) (call_fun F f a k).
Proof.
  intros E F f a k H. unfold call_fun. destruct f; auto with mono.
  destruct params; auto with mono. destruct va; auto with mono. destruct k; auto with mono.
  destruct H as (Hm & H') eqn:EH. rewrite <- Hm. destruct (String.eqb m (e_mod E)); auto with mono.
  apply le_bind; [apply exec_body_mono, H|]. auto with mono.
Qed.

(** ** Statements *)

Section STMT.
  Variables (M : string) (i j : string -> option modres).
  Hypothesis Hij : ext i j.

  Lemma env_of_ext : forall loc S, env_ext (env_of M i loc S) (env_of M j loc S).
  Proof. intros. repeat split; auto. Qed.

  Lemma ev_mono : forall loc S e, le (ev M i loc S e) (ev M j loc S e).
  Proof.
    intros. unfold ev. apply eval_mono; [apply env_of_ext|]. intros. apply call_fun_mono, env_of_ext.
  Qed.

  Lemma mapM_mono {A B} (f g : A -> r B) : (forall a, le (f a) (g a)) -> forall l, le (mapM f l) (mapM g l).
  Proof.
    intros H. induction l as [|a l IH]; cbn [mapM]; auto with mono.
    apply le_bind; auto. intro b. apply le_bind; auto with mono.
  Qed.

  Lemma exec_class_mono : forall fuel q base body attrs S,
    le (exec_class M i fuel q base body attrs S) (exec_class M j fuel q base body attrs S).
  Proof.
    induction fuel as [|n IH]; intros q base body attrs S; cbn [exec_class]; auto with mono.
    destruct body as [|s body]; auto with mono.
    apply le_bind; [|intros []; apply IH].
    destruct s; auto with mono.
    - destruct targets as [|[] [|]]; auto with mono. apply le_bind; [apply ev_mono|]; auto with mono.
    - apply le_bind; [apply ev_mono|]; auto with mono.
    - apply le_bind; [apply ev_mono|]. intros []; auto with mono.
      apply le_bind; [apply IH|]. intros []; auto with mono.
  Qed.

  Lemma import_from_mono : forall m a, le (import_from i m a) (import_from j m a).
  Proof.
    intros m a. unfold import_from. destruct (String.eqb m pkg).
    - destruct (i a) eqn:E; [|apply le_raise]. rewrite (Hij _ _ E). same.
    - destruct (strip_pkg m) as [x|]; auto with mono.
      destruct (i x) eqn:E; [|apply le_raise]. rewrite (Hij _ _ E). same.
  Qed.

  Lemma assign_target_mono : forall S t v, le (assign_target M i S t v) (assign_target M j S t v).
  Proof.
    intros S t v. unfold assign_target. destruct t; auto with mono.
    - destruct t; auto with mono. apply le_bind; [apply ev_mono|]; auto with mono.
    - destruct (sub_path (ESub t1 t2) []) as [[x path]|]; auto with mono.
      apply le_bind; [apply ev_mono|]. intro o.
      apply le_bind; [apply mapM_mono; intro; apply ev_mono|]. auto with mono.
  Qed.

  Theorem exec_stmt_mono : forall S s, le (exec_stmt M i S s) (exec_stmt M j S s).
  Proof.
    intros S s.
    assert (AG : forall v ts S,
      le ((fix go (ts : list expr) (S : state) : r state :=
         match ts with [] => OK S | t :: ts' => do S' <- assign_target M i S t v; go ts' S' end) ts S)
         ((fix go (ts : list expr) (S : state) : r state :=
         match ts with [] => OK S | t :: ts' => do S' <- assign_target M j S t v; go ts' S' end) ts S)).
    { intros v ts. induction ts as [|t ts IH]; intro S0; auto with mono.
      apply le_bind; [apply assign_target_mono|]. intro S1. apply IH. }
    destruct s; cbn [exec_stmt]; auto with mono.
    - revert S. induction names as [|[a b] names IH]; intro S; auto with mono.
      apply le_bind; [apply import_from_mono|]. intro v. apply IH.
    - destruct (strip_pkg m) as [x|]; auto with mono.
      destruct (i x) eqn:E; [|apply le_raise]. rewrite (Hij _ _ E). same.
    - assert (D : le (do v0 <- ev M i [] S v;
      (fix go (ts : list expr) (S : state) : r state :=
         match ts with [] => OK S | t :: ts' => do S' <- assign_target M i S t v0; go ts' S' end) targets S)
      (do v0 <- ev M j [] S v;
      (fix go (ts : list expr) (S : state) : r state :=
         match ts with [] => OK S | t :: ts' => do S' <- assign_target M j S t v0; go ts' S' end) targets S)).
      { apply le_bind; [apply ev_mono|]. intro v0. apply AG. }
      destruct targets as [|t1 [|t2 ts]]; try exact D; destruct t1; try exact D.
      destruct v; try exact D.
      destruct (existsb _ _); auto with mono.
      apply le_bind; auto with mono. apply mapM_mono. intros [k e]. cbn [fst snd].
      apply le_bind; [apply ev_mono|]. intro kv. apply le_bind; [apply ev_mono|]. auto with mono.
    - destruct e as [| |f args kw| | | | | | | | | |]; auto with mono.
      destruct f as [|f m| | | | | | | | | | |]; auto with mono.
      destruct args as [|a0 [|]]; auto with mono. destruct kw; auto with mono.
      destruct (String.eqb m "update"); auto with mono.
      apply le_bind; [apply ev_mono|]. intro o. apply le_bind; [apply ev_mono|]. auto with mono.
    - apply le_bind; [apply ev_mono|]. intros []; auto with mono.
      apply le_bind; [apply exec_class_mono|]. intros []; auto with mono.
  Qed.
End STMT.
