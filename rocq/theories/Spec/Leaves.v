(** Values that make no use of the components left out of a comparison, whatever octets they
    are read from. *)
From Coq Require Import List String ZArith NArith Bool Lia.
From Verif Require Import Asn1.Types Py.Eval Asn1.EqbFacts Spec.X680 Spec.Agree Spec.Conform.
Import ListNotations.
Open Scope string_scope.
Open Scope list_scope.

Section leaves.
  Variable sk : list exempt.
  Definition named (n : string) : bool := if spared sk n then true else match excluded sk n with Some _ => true | None => false end.
  (** No component is left out. *)
  Fixpoint free (s : sty) : bool :=
    let fix go (fs : list sfield) : bool :=
      match fs with
      | [] => true
      | SF n _ s' :: fs' => if named n then false else if free s' then go fs' else false
      end in
    match s with
    | ASeq fs | ASet fs | AChoice fs => go fs
    | ASeqOf s' | ASetOf s' | ATag _ _ _ s' | ACon _ s' => free s'
    | _ => true
    end.
  (** A component of which the type is not looked at is absent; one of which OPTIONAL or DEFAULT
      is not looked at is there, and its value is neither the default nor listed. *)
  Definition slot_leaves (leaves : aval -> bool) (n : string) (p : need) (o : option aval) : bool :=
    match o with
    | Some x =>
        if spared sk n then false
        else match excluded sk n with
             | Some l => encoded p o && negb (existsb (aval_eqb x) l)
             | None => true
             end && leaves x
    | None => match excluded sk n with Some _ => false | None => true end
    end.
  Fixpoint leaves (s : sty) (v : aval) {struct s} : bool :=
    match s with
    | APrim _ | AAny => true
    | ASeq fs =>
        match v with
        | VSeq vs =>
            (fix go (fs : list sfield) (vs : list (option aval)) {struct fs} : bool :=
               match fs, vs with
               | SF n p s' :: fs', o :: vs' => slot_leaves (leaves s') n p o && go fs' vs'
               | _, _ => true
               end) fs vs
        | _ => true
        end
    | ASet fs =>                     (* of several items for a component one value is left *)
        match v with
        | VSeq vs =>
            (fix go (fs : list sfield) (vs : list (option aval)) {struct fs} : bool :=
               match fs, vs with
               | SF n p s' :: fs', o :: vs' => slot_leaves (fun _ => free s') n p o && go fs' vs'
               | _, _ => true
               end) fs vs
        | _ => true
        end
    | ASeqOf s' => match v with VList vs => forallb (leaves s') vs | _ => true end
    | ASetOf s' => match v with VList vs => forallb (leaves s') vs | _ => true end
    | AChoice alts =>
        match v with
        | VAlt i x =>
            (fix go (fs : list sfield) (i : nat) {struct fs} : bool :=
               match fs, i with
               | SF n _ s' :: _, O => if spared sk n then false else leaves s' x
               | _ :: fs', S i' => go fs' i'
               | [], _ => true
               end) alts i
        | _ => true
        end
    | ATag _ _ _ s' => leaves s' v
    | ACon _ s' => leaves s' v
    end.
  Definition leave_by (L : sty -> aval -> bool) : list sfield -> list (option aval) -> bool :=
    fix go (fs : list sfield) (vs : list (option aval)) {struct fs} : bool :=
    match fs, vs with
    | SF n p s' :: fs', o :: vs' => slot_leaves (L s') n p o && go fs' vs'
    | _, _ => true
    end.
  Definition leave_fields := leave_by leaves.
  Definition leave_members := leave_by (fun s _ => free s).
  Definition left (L : sty -> aval -> bool) (f : sfield) (o : option aval) : bool := slot_leaves (L (sf_type f)) (sf_name f) (sf_need f) o.
  Lemma leave_nth : forall L fs vs, leave_by L fs vs = true -> forall j f o, nth_error fs j = Some f -> nth_error vs j = Some o -> left L f o = true.
  Proof.
    intro L. induction fs as [|[n p s] fs IH]; intros [|o vs] H [|j] f o' N M; try discriminate N; try discriminate M;
      cbn [leave_by] in H; fold (leave_by L) in H; apply andb_true_iff in H.
    - injection N as <-. injection M as <-. exact (proj1 H).
    - exact (IH vs (proj2 H) j f o' N M).
  Qed.
  Lemma leave_app : forall L fs1 fs2 vs1 vs2, List.length fs1 = List.length vs1 -> leave_by L (fs1 ++ fs2) (vs1 ++ vs2) = leave_by L fs1 vs1 && leave_by L fs2 vs2.
  Proof.
    intro L. induction fs1 as [|[n p s] fs1 IH]; intros fs2 [|o vs1] vs2 E; try discriminate E; [reflexivity|]. cbn [app leave_by]. fold (leave_by L).
    rewrite (IH fs2 vs1 vs2 ltac:(cbn in E; congruence)). apply andb_assoc.
  Qed.
  Definition free_field (f : sfield) : bool := negb (named (sf_name f)) && free (sf_type f).
  Lemma free_go : forall fs, (fix go (fs : list sfield) : bool :=
      match fs with [] => true | SF n _ s' :: fs' => if named n then false else if free s' then go fs' else false end) fs = forallb free_field fs.
  Proof.
    induction fs as [|[n p s] fs IH]; [reflexivity|]. cbn [forallb]. rewrite <- IH. unfold free_field. cbn [sf_name sf_type].
    destruct (named n); [reflexivity|]. destruct (free s); reflexivity.
  Qed.
  Lemma unnamed : forall n, named n = false -> spared sk n = false /\ excluded sk n = None.
  Proof. intros n H. unfold named in H. destruct (spared sk n); [discriminate H|]. destruct (excluded sk n); [discriminate H|split; reflexivity]. Qed.
  Lemma leaves_choice : forall alts i x, leaves (AChoice alts) (VAlt i x) =
    match nth_error alts i with Some (SF n _ s) => if spared sk n then false else leaves s x | None => true end.
  Proof. intros alts i x. cbn [leaves]. revert i. induction alts as [|[n p s] alts IH]; intros [|i]; try reflexivity. exact (IH i). Qed.
  (** Where nothing is left out there is nothing to leave. *)
  Lemma free_leaves : forall s v, free s = true -> leaves s v = true.
  Proof.
    assert (F : forall L fs, Forall (fun f => forall v, free (sf_type f) = true -> L (sf_type f) v = true) fs -> forallb free_field fs = true ->
      forall vs, leave_by L fs vs = true).
    { intro L. induction fs as [|[n p s] fs IH]; intros H FR vs; [reflexivity|]. destruct vs as [|o vs]; [reflexivity|]. inversion H as [|? ? H1 H2]; subst.
      cbn [forallb] in FR. apply andb_true_iff in FR. destruct FR as [FR FS]. apply andb_true_iff in FR. destruct FR as [N FR]. cbn [sf_name sf_type] in *.
      apply negb_true_iff, unnamed in N. destruct N as [N1 N2]. cbn [leave_by]. fold (leave_by L). rewrite (IH H2 FS vs), andb_true_r.
      unfold slot_leaves. rewrite N1, N2. destruct o as [x|]; [exact (H1 x FR)|reflexivity]. }
    induction s as [p| |fs IH|fs IH|s IH|s IH|fs IH|c n e s IH|c s IH] using sty_ind2; intros v H; try reflexivity.
    - cbn [free] in H. rewrite free_go in H. destruct v; try reflexivity. exact (F leaves fs IH H vs).
    - cbn [free] in H. rewrite free_go in H. destruct v; try reflexivity. apply (F (fun s _ => free s) fs); [|exact H]. apply Forall_forall. intros f _ _ K. exact K.
    - cbn [leaves]. destruct v; try reflexivity. apply forallb_forall. intros x _. exact (IH x H).
    - cbn [leaves]. destruct v; try reflexivity. apply forallb_forall. intros x _. exact (IH x H).
    - cbn [free] in H. rewrite free_go in H. destruct v as [| | | | | | | | |i x|]; try reflexivity. rewrite leaves_choice.
      destruct (nth_error fs i) as [[n p s]|] eqn:E; [|reflexivity]. apply nth_error_In in E. pose proof (proj1 (forallb_forall _ _) H _ E) as K.
      apply andb_true_iff in K. destruct K as [N FR]. cbn [sf_name sf_type] in *. apply negb_true_iff, unnamed in N. rewrite (proj1 N).
      exact (proj1 (Forall_forall _ _) IH _ E x FR).
    - exact (IH v H).
    - exact (IH v H).
  Qed.
End leaves.
Lemma free_all : forall s, free [] s = true.
Proof.
  assert (F : forall fs, Forall (fun f => free [] (sf_type f) = true) fs -> forallb (free_field []) fs = true).
  { induction fs as [|[n p s] fs IH]; intro H; [reflexivity|]. inversion H as [|? ? H1 H2]; subst. cbn [forallb]. rewrite (IH H2), andb_true_r. exact H1. }
  induction s as [p| |fs IH|fs IH|s IH|s IH|fs IH|c n e s IH|c s IH] using sty_ind2; try reflexivity; try exact IH; cbn [free]; rewrite free_go; exact (F fs IH).
Qed.
Lemma leaves_all : forall s v, leaves [] s v = true.
Proof. intros s v. apply free_leaves, free_all. Qed.
