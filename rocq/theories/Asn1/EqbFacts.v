(** The Boolean equality tests on schema objects decide equality. *)
From Coq Require Import List String ZArith NArith Bool.
From Verif Require Import Asn1.Types Py.Eval.
Import ListNotations.

Section MUT.
  Variables (P : asn1 -> Prop) (Q : aval -> Prop).
  Definition optQ (o : option aval) : Prop := match o with Some v => Q v | None => True end.
  Definition FP (f : field) : Prop := P (ftype f) /\ optQ (fdef f).
  Hypothesis Hprim : forall k m, P (TPrim k m).
  Hypothesis Hseq : forall s m fs, Forall FP fs -> P (TSeq s m fs).
  Hypothesis Hof : forall s m t, P t -> P (TOf s m (Some t)).
  Hypothesis Hof0 : forall s m, P (TOf s m None).
  Hypothesis Hch : forall m fs, Forall FP fs -> P (TChoice m fs).
  Hypothesis Hleaf : forall v, (match v with VSeq _ | VList _ | VAlt _ _ | VTyped _ _ => False | _ => True end) -> Q v.
  Hypothesis HVSeq : forall l, Forall optQ l -> Q (VSeq l).
  Hypothesis HVList : forall l, Forall Q l -> Q (VList l).
  Hypothesis HVAlt : forall i v, Q v -> Q (VAlt i v).
  Hypothesis HVTyped : forall t o, P t -> optQ o -> Q (VTyped t o).

  Fixpoint asn1_mut (t : asn1) : P t :=
    let fix go (fs : list field) : Forall FP fs :=
      match fs with
      | [] => Forall_nil _
      | f :: fs' =>
          Forall_cons f (match f as f0 return FP f0 with
                         | Fld _ _ t' d _ =>
                             conj (asn1_mut t')
                                  (match d as d0 return optQ d0 with Some v => aval_mut v | None => I end)
                         end) (go fs')
      end in
    match t with
    | TPrim k m => Hprim k m
    | TSeq s m fs => Hseq s m fs (go fs)
    | TOf s m (Some t') => Hof s m t' (asn1_mut t')
    | TOf s m None => Hof0 s m
    | TChoice m fs => Hch m fs (go fs)
    end
  with aval_mut (v : aval) : Q v :=
    match v as v0 return Q v0 with
    | VBool b => Hleaf (VBool b) I
    | VInt z => Hleaf (VInt z) I
    | VBits b => Hleaf (VBits b) I
    | VOcts b => Hleaf (VOcts b) I
    | VNull => Hleaf VNull I
    | VOid a => Hleaf (VOid a) I
    | VText t => Hleaf (VText t) I
    | VSeq l => HVSeq l ((fix go (l : list (option aval)) : Forall optQ l :=
                  match l with
                  | [] => Forall_nil _
                  | o :: l' => Forall_cons o (match o as o0 return optQ o0 with Some v => aval_mut v | None => I end) (go l')
                  end) l)
    | VList l => HVList l ((fix go (l : list aval) : Forall Q l :=
                  match l with [] => Forall_nil _ | v :: l' => Forall_cons v (aval_mut v) (go l') end) l)
    | VAlt i v => HVAlt i v (aval_mut v)
    | VTyped t o => HVTyped t o (asn1_mut t) (match o as o0 return optQ o0 with Some v => aval_mut v | None => I end)
    end.
End MUT.

Ltac bools := repeat match goal with H : (_ && _)%bool = true |- _ => apply andb_true_iff in H; destruct H end.

Lemma list_eqb_sound {A} (e : A -> A -> bool) : (forall x y, e x y = true -> x = y) ->
  forall a b, list_eqb e a b = true -> a = b.
Proof.
  intros H. induction a as [|x a IH]; intros [|y b] E; cbn in E; try discriminate; auto.
  bools. f_equal; auto.
Qed.
Lemma opt_eqb_sound {A} (e : A -> A -> bool) : (forall x y, e x y = true -> x = y) ->
  forall a b, opt_eqb e a b = true -> a = b.
Proof. intros H [x|] [y|] E; cbn in E; try discriminate; auto. f_equal; auto. Qed.

Lemma Neqb_sound : forall x y, N.eqb x y = true -> x = y. Proof. apply N.eqb_eq. Qed.
Lemma Zeqb_sound : forall x y, Z.eqb x y = true -> x = y. Proof. apply Z.eqb_eq. Qed.
Lemma Beqb_sound : forall x y, Bool.eqb x y = true -> x = y. Proof. apply Bool.eqb_prop. Qed.
Lemma Seqb_sound : forall x y, String.eqb x y = true -> x = y. Proof. apply String.eqb_eq. Qed.

Lemma cval_eqb_sound : forall a b, cval_eqb a b = true -> a = b.
Proof.
  intros [x|x|x] [y|y|y] E; cbn in E; try discriminate; f_equal;
    auto using Zeqb_sound, (list_eqb_sound N.eqb Neqb_sound).
Qed.

Fixpoint cons_eqb_sound (a b : cons) {struct a} : cons_eqb a b = true -> a = b.
Proof.
  destruct a as [x|x|l h|l h|x|x|x], b as [y|y|l' h'|l' h'|y|y|y]; cbn; intro E; try discriminate.
  - f_equal. revert y E. induction x as [|c x IH]; intros [|d y] E; try discriminate; auto.
    bools. f_equal; [apply cons_eqb_sound; assumption|apply IH; assumption].
  - f_equal. revert y E. induction x as [|c x IH]; intros [|d y] E; try discriminate; auto.
    bools. f_equal; [apply cons_eqb_sound; assumption|apply IH; assumption].
  - bools. f_equal; [apply Zeqb_sound|apply (opt_eqb_sound Z.eqb Zeqb_sound)]; assumption.
  - bools. f_equal; [apply Zeqb_sound|apply (opt_eqb_sound Z.eqb Zeqb_sound)]; assumption.
  - f_equal. apply (list_eqb_sound _ cval_eqb_sound), E.
  - f_equal. apply (list_eqb_sound _ Neqb_sound), E.
  - f_equal. revert E. apply list_eqb_sound. intros [s p] [s' p'] E. cbn in E. bools.
    f_equal; [apply Seqb_sound|apply Beqb_sound]; assumption.
Qed.

Lemma prim_eqb_sound : forall a b, prim_eqb a b = true -> a = b.
Proof.
  intros a b. destruct a as [ | | | | | | | |s]; destruct b as [ | | | | | | | |s'];
    cbn; intro E; try discriminate; auto.
  destruct s, s'; try discriminate; auto.
Qed.

Lemma tag_sound : forall x y, (tag_eqb x y && Bool.eqb (tcons x) (tcons y))%bool = true -> x = y.
Proof.
  intros [c f n] [c' f' n'] E. unfold tag_eqb in E. cbn [tcls tcons tnum] in E. bools.
  apply Beqb_sound in H0. apply Neqb_sound in H1. destruct c, c'; try discriminate; congruence.
Qed.

Lemma meta_eqb_sound : forall a b, meta_eqb a b = true -> a = b.
Proof.
  intros [t s n z] [t' s' n' z'] E. unfold meta_eqb in E. cbn [tags spec nvals szs] in E. bools.
  apply (list_eqb_sound _ tag_sound) in H. apply cons_eqb_sound in H0, H2.
  assert (n = n').
  { revert H1. apply list_eqb_sound. intros [p q] [p' q'] E. cbn in E. bools.
    f_equal; [apply Seqb_sound|apply Zeqb_sound]; assumption. }
  congruence.
Qed.

Lemma did_eqb_sound : forall a b, did_eqb a b = true -> a = b.
Proof.
  intros [a a'] [b b'] E. unfold did_eqb in E. cbn in E. bools. f_equal; apply Seqb_sound; assumption.
Qed.
Lemma did_eqb_refl : forall d, did_eqb d d = true.
Proof. intros [a b]. unfold did_eqb. cbn. rewrite !String.eqb_refl. reflexivity. Qed.
Lemma open_sound : forall u v : string * did, (String.eqb (fst u) (fst v) && did_eqb (snd u) (snd v))%bool = true -> u = v.
Proof. intros [a d] [b e] E. cbn in E. bools. f_equal; [apply Seqb_sound|apply did_eqb_sound]; assumption. Qed.
Lemma pres_eqb_sound : forall a b, pres_eqb a b = true -> a = b.
Proof. intros [] []; cbn; intro; try discriminate; auto. Qed.

Theorem eqb_sound :
  (forall a b, asn1_eqb a b = true -> a = b) /\ (forall a b, aval_eqb a b = true -> a = b).
Proof.
  set (P := fun a => forall b, asn1_eqb a b = true -> a = b).
  set (Q := fun a => forall b, aval_eqb a b = true -> a = b).
  assert (FS : forall fs, Forall (FP P Q) fs -> forall gs,
    (fix go (x y : list field) : bool :=
    match x, y with
    | [], [] => true
    | Fld n p t d o :: x', Fld n' p' t' d' o' :: y' =>
        String.eqb n n' && pres_eqb p p' && asn1_eqb t t' && opt_eqb aval_eqb d d'
        && opt_eqb (fun u v => String.eqb (fst u) (fst v) && did_eqb (snd u) (snd v)) o o' && go x' y'
    | _, _ => false
    end)%bool fs gs = true -> fs = gs).
  { induction 1 as [|[n p t d o] fs [HP HQ] _ IH]; intros [|[n' p' t' d' o'] gs] E; try discriminate; auto.
    bools. cbn [ftype fdef] in HP, HQ. apply Seqb_sound in H. apply pres_eqb_sound in H4.
    apply HP in H3. apply (opt_eqb_sound _ open_sound) in H1. apply IH in H0.
    assert (d = d') by (destruct d, d'; cbn in H2; try discriminate; auto; f_equal; apply HQ; auto).
    congruence. }
  assert (PA : forall a, P a).
  { apply (asn1_mut P Q); unfold P, Q.
    - intros k m [k' m'| | |] E; cbn in E; try discriminate. bools.
      apply prim_eqb_sound in H. apply meta_eqb_sound in H0. congruence.
    - intros s m fs H b E. destruct b as [|s' m' gs|s' m' [|]|]; cbn in E; try discriminate. bools.
      apply Beqb_sound in H0. apply meta_eqb_sound in H2. apply FS in H1; auto. congruence.
    - intros s m t H b E. destruct b as [|s' m' gs|s' m' [t'|]|]; cbn in E; try discriminate. bools.
      apply Beqb_sound in H0. apply meta_eqb_sound in H2. apply H in H1. congruence.
    - intros s m b E. destruct b as [|s' m' gs|s' m' [t'|]|]; cbn in E; try discriminate. bools.
      apply Beqb_sound in H. apply meta_eqb_sound in H0. congruence.
    - intros m fs H b E. destruct b as [|s' m' gs|s' m' [|]|m' gs]; cbn in E; try discriminate. bools.
      apply meta_eqb_sound in H0. apply FS in H1; auto. congruence.
    - intros v Hv b E. destruct v; try destruct Hv; destruct b; cbn in E; try discriminate; f_equal;
        auto using Beqb_sound, Zeqb_sound, (list_eqb_sound N.eqb Neqb_sound), (list_eqb_sound Bool.eqb Beqb_sound).
    - intros l H b E. destruct b; cbn in E; try discriminate. f_equal. revert vs E.
      induction H as [|o l Ho _ IH]; intros [|o' vs] E; try discriminate; auto; destruct o as [u|].
      + discriminate.
      + discriminate.
      + destruct o' as [u'|]; [|discriminate]. bools. f_equal; auto. f_equal. apply Ho; auto.
      + destruct o' as [u'|]; [discriminate|]. f_equal; auto.
    - intros l H b E. destruct b; cbn in E; try discriminate. f_equal. revert vs E.
      induction H as [|o l Ho _ IH]; intros [|o' vs] E; try discriminate; auto. bools. f_equal; auto.
    - intros i v H b E. destruct b; cbn in E; try discriminate. bools. apply PeanoNat.Nat.eqb_eq in H0.
      apply H in H1. congruence.
    - intros t o H Ho b E. destruct b; cbn in E; try discriminate. bools. apply H in H0. subst.
      f_equal. destruct o, v; try discriminate; auto. f_equal. apply Ho, H1. }
  split; [exact PA|].
  assert (V : forall v, Q v).
  { intros v b E. pose (t := TSeq false (mkM [] (CInter []) [] (CInter [])) [Fld "" Req (TPrim KNull (mkM [] (CInter []) [] (CInter []))) (Some v) None]).
    pose (t' := TSeq false (mkM [] (CInter []) [] (CInter [])) [Fld "" Req (TPrim KNull (mkM [] (CInter []) [] (CInter []))) (Some b) None]).
    assert (X : asn1_eqb t t' = true) by (cbn; rewrite E; reflexivity).
    apply PA in X. inversion X; reflexivity. }
  exact V.
Qed.

Lemma asn1_eqb_sound : forall a b, asn1_eqb a b = true -> a = b. Proof. apply eqb_sound. Qed.
Lemma aval_eqb_sound : forall a b, aval_eqb a b = true -> a = b. Proof. apply eqb_sound. Qed.

Lemma key_eqb_sound : forall a b, key_eqb a b = true -> a = b.
Proof.
  intros [x|x] [y|y] E; cbn in E; try discriminate; f_equal;
    [apply (list_eqb_sound _ Neqb_sound)|apply Zeqb_sound]; assumption.
Qed.
Lemma list_eqb_refl {A} (e : A -> A -> bool) : (forall x, e x x = true) -> forall l, list_eqb e l l = true.
Proof. intros H l; induction l; cbn; auto. rewrite H; auto. Qed.
Lemma key_eqb_refl : forall k, key_eqb k k = true.
Proof. intros [x|x]; cbn; [apply list_eqb_refl, N.eqb_refl|apply Z.eqb_refl]. Qed.

Lemma opt_eqb_refl {A} (e : A -> A -> bool) : (forall x, e x x = true) -> forall o, opt_eqb e o o = true.
Proof. intros H [x|]; cbn; auto. Qed.
Lemma cval_eqb_refl : forall a, cval_eqb a a = true.
Proof. intros []; cbn; auto using Z.eqb_refl, (list_eqb_refl N.eqb N.eqb_refl). Qed.
Fixpoint cons_eqb_refl (a : cons) {struct a} : cons_eqb a a = true.
Proof.
  destruct a as [x|x|l h|l h|x|x|x]; cbn.
  - induction x as [|c x IH]; auto. rewrite cons_eqb_refl. exact IH.
  - induction x as [|c x IH]; auto. rewrite cons_eqb_refl. exact IH.
  - rewrite Z.eqb_refl, (opt_eqb_refl Z.eqb Z.eqb_refl). reflexivity.
  - rewrite Z.eqb_refl, (opt_eqb_refl Z.eqb Z.eqb_refl). reflexivity.
  - apply list_eqb_refl, cval_eqb_refl.
  - apply list_eqb_refl, N.eqb_refl.
  - apply list_eqb_refl. intros [s b]. cbn. rewrite String.eqb_refl, Bool.eqb_reflx. reflexivity.
Qed.
Lemma prim_eqb_refl : forall a, prim_eqb a a = true.
Proof. intros [ | | | | | | | |s]; try reflexivity. destruct s; reflexivity. Qed.
Lemma tag_refl : forall x, (tag_eqb x x && Bool.eqb (tcons x) (tcons x))%bool = true.
Proof.
  intros [c f k]. unfold tag_eqb. cbn [tcls tnum tcons]. rewrite N.eqb_refl, Bool.eqb_reflx. destruct c; reflexivity.
Qed.
Lemma open_refl : forall u : string * did, (String.eqb (fst u) (fst u) && did_eqb (snd u) (snd u))%bool = true.
Proof. intros [a d]. cbn. rewrite String.eqb_refl, did_eqb_refl. reflexivity. Qed.
Lemma meta_eqb_refl : forall a, meta_eqb a a = true.
Proof.
  intros [t s n z]. unfold meta_eqb. cbn [tags spec nvals szs].
  rewrite !cons_eqb_refl, (list_eqb_refl _ tag_refl).
  rewrite list_eqb_refl; [reflexivity|]. intros [a b]. cbn. rewrite String.eqb_refl, Z.eqb_refl. reflexivity.
Qed.
Theorem eqb_refl : (forall a, asn1_eqb a a = true) /\ (forall a, aval_eqb a a = true).
Proof.
  set (P := fun a => asn1_eqb a a = true). set (Q := fun a => aval_eqb a a = true).
  assert (FS : forall fs, Forall (FP P Q) fs ->
    (fix go (x y : list field) : bool :=
    match x, y with
    | [], [] => true
    | Fld n p t d o :: x', Fld n' p' t' d' o' :: y' =>
        String.eqb n n' && pres_eqb p p' && asn1_eqb t t' && opt_eqb aval_eqb d d'
        && opt_eqb (fun u v => String.eqb (fst u) (fst v) && did_eqb (snd u) (snd v)) o o' && go x' y'
    | _, _ => false
    end)%bool fs fs = true).
  { induction 1 as [|[n p t d o] fs [HP HQ] _ IH]; auto.
    rewrite String.eqb_refl, IH. cbn [ftype fdef] in HP, HQ. rewrite HP.
    rewrite (opt_eqb_refl _ open_refl).
    replace (pres_eqb p p) with true by (destruct p; reflexivity).
    replace (opt_eqb aval_eqb d d) with true by (destruct d; cbn; auto). reflexivity. }
  assert (L : forall v, (match v with VSeq _ | VList _ | VAlt _ _ | VTyped _ _ => False | _ => True end) -> Q v).
  { intros v Hv. destruct v; try destruct Hv; unfold Q; cbn;
      auto using Bool.eqb_reflx, Z.eqb_refl, (list_eqb_refl N.eqb N.eqb_refl), (list_eqb_refl Bool.eqb Bool.eqb_reflx). }
  assert (S1 : forall l, Forall (optQ Q) l -> Q (VSeq l)).
  { intros l H. unfold Q. cbn. induction H as [|o l Ho _ IH]; auto. destruct o; auto. rewrite Ho. exact IH. }
  assert (S2 : forall l, Forall Q l -> Q (VList l)).
  { intros l H. unfold Q. cbn. induction H as [|o l Ho _ IH]; auto. rewrite Ho. exact IH. }
  assert (S3 : forall i v, Q v -> Q (VAlt i v)).
  { intros i v H. unfold Q. cbn. rewrite PeanoNat.Nat.eqb_refl. exact H. }
  assert (S4 : forall t o, P t -> optQ Q o -> Q (VTyped t o)).
  { intros t o H Ho. unfold Q. cbn. rewrite H. destruct o; auto. }
  assert (T1 : forall k m, P (TPrim k m)) by (intros; unfold P; cbn; rewrite prim_eqb_refl, meta_eqb_refl; auto).
  assert (T2 : forall s m fs, Forall (FP P Q) fs -> P (TSeq s m fs)).
  { intros s m fs H. unfold P. cbn. rewrite Bool.eqb_reflx, meta_eqb_refl. apply FS, H. }
  assert (T3 : forall s m t, P t -> P (TOf s m (Some t))).
  { intros s m t H. unfold P. cbn. rewrite Bool.eqb_reflx, meta_eqb_refl. exact H. }
  assert (T4 : forall s m, P (TOf s m None)).
  { intros s m. unfold P. cbn. rewrite Bool.eqb_reflx, meta_eqb_refl. reflexivity. }
  assert (T5 : forall m fs, Forall (FP P Q) fs -> P (TChoice m fs)).
  { intros m fs H. unfold P. cbn. rewrite meta_eqb_refl. apply FS, H. }
  split; [apply (asn1_mut P Q)|apply (aval_mut P Q)]; assumption.
Qed.

Definition entry_eqb (a b : asn1 * option aval) : bool :=
  asn1_eqb (fst a) (fst b) && opt_eqb aval_eqb (snd a) (snd b).
Lemma entry_eqb_iff : forall a b, entry_eqb a b = true <-> a = b.
Proof.
  intros [t o] [t' o']. unfold entry_eqb. cbn [fst snd]. split.
  - intro E. bools. f_equal; [apply asn1_eqb_sound|apply (opt_eqb_sound _ aval_eqb_sound)]; assumption.
  - intro E. inversion E; subst. rewrite (proj1 eqb_refl), (opt_eqb_refl _ (proj2 eqb_refl)). reflexivity.
Qed.
