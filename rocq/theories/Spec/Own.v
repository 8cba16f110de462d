(** The RFC's type with the constraints of the schema object. *)
From Coq Require Import List String ZArith NArith Bool Lia.
From Verif Require Import Asn1.Types Asn1.Der Spec.X680 Spec.Agree Spec.Leaves Spec.Complete.
Import ListNotations.
Open Scope string_scope.
Open Scope list_scope.

(** Without constraints. *)
Fixpoint strip (s : sty) : sty :=
  let fix all (fs : list sfield) : list sfield := match fs with [] => [] | SF n p s' :: fs' => SF n p (strip s') :: all fs' end in
  match s with
  | APrim _ | AAny => s
  | ASeq fs => ASeq (all fs)
  | ASet fs => ASet (all fs)
  | ASeqOf s' => ASeqOf (strip s')
  | ASetOf s' => ASetOf (strip s')
  | AChoice fs => AChoice (all fs)
  | ATag c n e s' => ATag c n e (strip s')
  | ACon _ s' => strip s'
  end.

(** pyasn1's constraints in the notation of X.680. *)
Fixpoint all_there {A} (l : list (option A)) : option (list A) :=
  match l with
  | [] => Some []
  | Some a :: l' => match all_there l' with Some r => Some (a :: r) | None => None end
  | None :: _ => None
  end.
Definition noted (c : cons) : list scon :=
  match c with
  | CSize l h => [SizeC (Z.to_N l) (option_map Z.to_N h)]
  | CRange l h => [RangeC (Some l) h]
  | CSingle l => [ValuesC l]
  | CUnion l => match singles l with
                | Some v => [ValuesC v]
                | None => match all_there (lengths l) with Some n => [SizesC (map Z.to_N n)] | None => [] end
                end
  | CAlpha l => [FromC l]
  | _ => []
  end.
Definition bound (c : cons) (but : list scon) (s : sty) : sty :=
  fold_right ACon s (flat_map noted (filter (fun a => negb (existsb (fun b => same_con b a) but)) (atoms c))).

(** WITH COMPONENTS stays if the schema object has something of the kind. *)
Definition keeps (c : scon) (t : asn1) : bool := match c, t with WithC _, TSeq _ m _ => ctruthy (spec m) | _, _ => false end.
Fixpoint as_bound (s : sty) (t : asn1) {struct s} : sty :=
  let fix all (fs : list sfield) (gs : list field) {struct fs} : list sfield :=
    match fs, gs with
    | SF n p s' :: fs', Fld _ _ t' _ _ :: gs' => SF n p (as_bound s' t') :: all fs' gs'
    | _, _ => fs
    end in
  match s, t with
  | ACon c s', _ => if keeps c t then ACon c (as_bound s' t) else as_bound s' t
  | ATag c n e s', _ => ATag c n e (as_bound s' t)
  | APrim p, TPrim _ m => bound (spec m) (built_in p) s
  | AAny, TPrim _ m => bound (spec m) [] s
  | ASeq fs, TSeq _ _ gs => ASeq (all fs gs)
  | ASet fs, TSeq _ _ gs => ASet (all fs gs)
  | ASeqOf s', TOf _ m (Some t') => bound (spec m) [] (ASeqOf (as_bound s' t'))
  | ASetOf s', TOf _ m (Some t') => bound (spec m) [] (ASetOf (as_bound s' t'))
  | AChoice fs, TChoice _ gs => AChoice (all fs gs)
  | _, _ => s
  end.

Lemma strip_bound : forall c l s, strip (bound c l s) = strip s.
Proof. intros c l s. unfold bound. induction (flat_map _ _) as [|a r IH]; [reflexivity|exact IH]. Qed.
Definition strip_all : list sfield -> list sfield :=
  fix all (fs : list sfield) : list sfield := match fs with [] => [] | SF n p s' :: fs' => SF n p (strip s') :: all fs' end.
Definition own_all : list sfield -> list field -> list sfield :=
  fix all (fs : list sfield) (gs : list field) {struct fs} : list sfield :=
    match fs, gs with
    | SF n p s' :: fs', Fld _ _ t' _ _ :: gs' => SF n p (as_bound s' t') :: all fs' gs'
    | _, _ => fs
    end.
Lemma strip_own_all : forall fs, Forall (fun f => forall t, strip (as_bound (sf_type f) t) = strip (sf_type f)) fs -> forall gs, strip_all (own_all fs gs) = strip_all fs.
Proof.
  intros fs F. induction F as [|[n p s] fs P F IH]; intros [|[n' q t d o] gs]; try reflexivity. cbn [own_all strip_all]. fold own_all strip_all. cbn [sf_type] in P.
  rewrite (P t), (IH gs). reflexivity.
Qed.
(** Only the constraints differ. *)
Lemma strip_own : forall s t, strip (as_bound s t) = strip s.
Proof.
  induction s as [p| |fs IH|fs IH|s IH|s IH|fs IH|c n e s IH|c s IH] using sty_ind2; intro t.
  - destruct t; try reflexivity. apply strip_bound.
  - destruct t; try reflexivity. apply strip_bound.
  - destruct t as [|? ? gs| |]; try reflexivity. exact (f_equal ASeq (strip_own_all fs IH gs)).
  - destruct t as [|? ? gs| |]; try reflexivity. exact (f_equal ASet (strip_own_all fs IH gs)).
  - destruct t as [| |? ? [t|]|]; try reflexivity. cbn [as_bound]. rewrite strip_bound. exact (f_equal ASeqOf (IH t)).
  - destruct t as [| |? ? [t|]|]; try reflexivity. cbn [as_bound]. rewrite strip_bound. exact (f_equal ASetOf (IH t)).
  - destruct t as [| | |? gs]; try reflexivity. exact (f_equal AChoice (strip_own_all fs IH gs)).
  - exact (f_equal (ATag c n e) (IH t)).
  - cbn [as_bound]. destruct (keeps c t); exact (IH t).
Qed.

(** ** What does not depend on constraints *)

Lemma strip_seq : forall fs, strip (ASeq fs) = ASeq (strip_all fs).
Proof. reflexivity. Qed.
Lemma strip_set : forall fs, strip (ASet fs) = ASet (strip_all fs).
Proof. reflexivity. Qed.
Lemma strip_choice : forall fs, strip (AChoice fs) = AChoice (strip_all fs).
Proof. reflexivity. Qed.

Section leaves.
  Variable sk : list exempt.
  Lemma free_strip : forall s, free sk (strip s) = free sk s.
  Proof.
    assert (G : forall fs, Forall (fun f => free sk (strip (sf_type f)) = free sk (sf_type f)) fs ->
      forallb (free_field sk) (strip_all fs) = forallb (free_field sk) fs).
    { intros fs F. induction F as [|[n p s] fs P F IH]; [reflexivity|]. cbn [strip_all forallb]. fold strip_all. rewrite IH. unfold free_field at 1 3.
      cbn [sf_name sf_type] in *. rewrite P. reflexivity. }
    induction s as [p| |fs IH|fs IH|s IH|s IH|fs IH|c n e s IH|c s IH] using sty_ind2; try reflexivity; try exact IH.
    - rewrite strip_seq. cbn [free]. rewrite !free_go. exact (G fs IH).
    - rewrite strip_set. cbn [free]. rewrite !free_go. exact (G fs IH).
    - rewrite strip_choice. cbn [free]. rewrite !free_go. exact (G fs IH).
  Qed.
  Lemma leaves_strip : forall s v, leaves sk (strip s) v = leaves sk s v.
  Proof.
    assert (X : forall n p o (f g : aval -> bool), (forall v, f v = g v) -> slot_leaves sk f n p o = slot_leaves sk g n p o).
    { intros n p [x|] f g H; [|reflexivity]. cbn [slot_leaves]. rewrite (H x). reflexivity. }
    assert (Y : forall (L : sty -> aval -> bool) fs, Forall (fun f => forall v, L (strip (sf_type f)) v = L (sf_type f) v) fs ->
      forall vs, leave_by sk L (strip_all fs) vs = leave_by sk L fs vs).
    { intros L fs F. induction F as [|[n p s] fs P F IH]; intros [|o vs]; try reflexivity. cbn [strip_all leave_by]. fold strip_all (leave_by sk L).
      cbn [sf_type] in P. rewrite (IH vs), (X n p o _ _ P). reflexivity. }
    assert (Z : forall l (f g : aval -> bool), (forall v, f v = g v) -> forallb f l = forallb g l).
    { intros l f g H. induction l as [|a l IH]; [reflexivity|]. cbn [forallb]. rewrite H, IH. reflexivity. }
    induction s as [p| |fs IH|fs IH|s IH|s IH|fs IH|c n e s IH|c s IH] using sty_ind2; intro v; try reflexivity.
    - rewrite strip_seq. destruct v; try reflexivity. exact (Y (leaves sk) fs IH _).
    - rewrite strip_set. destruct v; try reflexivity. refine (Y (fun s _ => free sk s) fs _ _). apply Forall_forall. intros f _ w. apply free_strip.
    - destruct v; try reflexivity. exact (Z _ _ _ IH).
    - destruct v; try reflexivity. exact (Z _ _ _ IH).
    - rewrite strip_choice. destruct v as [| | | | | | | | |i x|]; try reflexivity. rewrite !leaves_choice. revert i. induction IH as [|[n p s] fs P F IH]; intros [|i]; try reflexivity.
      + cbn [strip_all nth_error sf_type] in *. rewrite P. reflexivity.
      + exact (IH i).
    - exact (IH v).
    - exact (IH v).
  Qed.
End leaves.
Lemma whole_strip : forall s v, whole (strip s) v = whole s v.
Proof.
  assert (Y : forall fs, Forall (fun f => forall v, whole (strip (sf_type f)) v = whole (sf_type f) v) fs ->
    forall vs, whole (ASeq (strip_all fs)) (VSeq vs) = whole (ASeq fs) (VSeq vs)).
  { intros fs F. induction F as [|[n p s] fs P F IH]; intros [|o vs]; try reflexivity. cbn [sf_type] in P. specialize (IH vs). cbn [whole] in *.
    cbn [strip_all]. fold strip_all. rewrite IH. destruct o as [x|]; [rewrite (P x)|]; reflexivity. }
  assert (Z : forall l (f g : aval -> bool), (forall v, f v = g v) -> forallb f l = forallb g l).
  { intros l f g H. induction l as [|a l IH]; [reflexivity|]. cbn [forallb]. rewrite H, IH. reflexivity. }
  induction s as [p| |fs IH|fs IH|s IH|s IH|fs IH|c n e s IH|c s IH] using sty_ind2; intro v; try reflexivity.
  - rewrite strip_seq. destruct v; try reflexivity. exact (Y fs IH _).
  - rewrite strip_set. destruct v; try reflexivity. exact (Y fs IH _).
  - destruct v; try reflexivity. exact (Z _ _ _ IH).
  - destruct v; try reflexivity. exact (Z _ _ _ IH).
  - rewrite strip_choice. destruct v as [| | | | | | | | |i x|]; try reflexivity. cbn [whole]. revert i. induction IH as [|[n p s] fs P F IH]; intros [|i]; try reflexivity.
    + exact (P x).
    + exact (IH i).
  - exact (IH v).
  - exact (IH v).
Qed.
Lemma defaults_strip : forall s, defaults_whole (strip s) = defaults_whole s.
Proof.
  assert (G : forall fs, Forall (fun f => defaults_whole (strip (sf_type f)) = defaults_whole (sf_type f)) fs ->
    forallb default_whole (strip_all fs) = forallb default_whole fs).
  { intros fs F. induction F as [|[n p s] fs P F IH]; [reflexivity|]. cbn [strip_all forallb]. fold strip_all. rewrite IH.
    cbn [sf_type default_whole] in *. rewrite P. destruct p; try reflexivity. rewrite whole_strip. reflexivity. }
  induction s as [p| |fs IH|fs IH|s IH|s IH|fs IH|c n e s IH|c s IH] using sty_ind2; try reflexivity; try exact IH.
  - rewrite strip_seq. cbn [defaults_whole]. rewrite !defaults_go. exact (G fs IH).
  - rewrite strip_set. cbn [defaults_whole]. rewrite !defaults_go. exact (G fs IH).
  - rewrite strip_choice. cbn [defaults_whole]. rewrite !defaults_go. exact (G fs IH).
Qed.
(** The same for types that differ in their constraints only. *)
Lemma leaves_same : forall sk s s' v, strip s' = strip s -> leaves sk s' v = leaves sk s v.
Proof. intros sk s s' v E. rewrite <- (leaves_strip sk s), <- E, leaves_strip. reflexivity. Qed.
Lemma whole_same : forall s s' v, strip s' = strip s -> whole s' v = whole s v.
Proof. intros s s' v E. rewrite <- (whole_strip s), <- E, whole_strip. reflexivity. Qed.
Lemma defaults_same : forall s s', strip s' = strip s -> defaults_whole s' = defaults_whole s.
Proof. intros s s' E. rewrite <- (defaults_strip s), <- E, defaults_strip. reflexivity. Qed.
