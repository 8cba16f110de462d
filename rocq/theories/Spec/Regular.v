(** Types all of whose values are [regular], decided from the type alone. *)
From Coq Require Import List String ZArith NArith Bool Lia.
From Verif Require Import Asn1.Types Spec.X680 Spec.X690 Spec.Agree Spec.Conform.
Import ListNotations.
Open Scope list_scope.

(** No INTEGER, ENUMERATED, BIT STRING with named bits or GeneralizedTime, and no OPTIONAL
    component whose encoding may have empty contents. *)
Definition tame_prim (p : sprim) : bool :=
  match p with PInt _ | PEnum _ | PBits (_ :: _) | PStr SGenTime => false | _ => true end.
Fixpoint tame (ine : bool) (s : sty) {struct s} : bool :=
  match s with
  | APrim p => tame_prim p
  | AAny => true
  | ASeq fs | ASet fs =>
      (fix go (fs : list sfield) : bool :=
         match fs with [] => true | SF _ p s' :: fs' => tame (is_optional p) s' && go fs' end) fs
      && (negb ine || existsb (fun f => match sf_need f with Mandatory => true | _ => false end) fs)
  | ASeqOf s' | ASetOf s' => tame ine s' && negb ine
  | AChoice alts => (fix go (fs : list sfield) : bool :=
         match fs with [] => true | SF _ p s' :: fs' => tame ine s' && go fs' end) alts
  | ATag _ _ _ s' | ACon _ s' => tame ine s'
  end.

Lemma tame_regular_prim : forall p v, tame_prim p = true -> regular_prim p v = true.
Proof. intros [|n|n|[|]|  | | |[]] []; intro H; try reflexivity; discriminate H. Qed.
Theorem tame_regular : forall s ine v, tame ine s = true -> has s v = true -> regular ine s v = true.
Proof.
  assert (F : forall fs, Forall (fun f => forall ine v, tame ine (sf_type f) = true -> has (sf_type f) v = true -> regular ine (sf_type f) v = true) fs ->
    forall ine vs, (fix go (fs : list sfield) : bool :=
         match fs with [] => true | SF _ p s' :: fs' => tame (is_optional p) s' && go fs' end) fs
      && (negb ine || existsb (fun f => match sf_need f with Mandatory => true | _ => false end) fs) = true -> has_fields fs vs = true ->
    regular_fields fs vs && (negb ine || some_field fs vs) = true).
  { intros fs IH ine vs T H. apply andb_true_iff in T. destruct T as [T N]. apply andb_true_iff. split.
    - clear N. revert vs T H. induction IH as [|[n p s] fs P _ IH]; intros [|o vs] T H; try reflexivity; try discriminate H.
      apply andb_true_iff in T. destruct T as [T1 T2]. cbn in H. apply andb_true_iff in H. destruct H as [H1 H2].
      cbn. apply andb_true_iff. split; [|exact (IH vs T2 H2)]. destruct o as [x|]; [|reflexivity].
      apply orb_true_iff. right. apply P; [exact T1|]. destruct p; exact H1.
    - destruct ine; [|reflexivity]. cbn [negb orb] in *. clear T IH. revert vs H.
      induction fs as [|[n p s] fs IH]; intros [|o vs] H; try discriminate N; try discriminate H.
      cbn in N, H |- *. apply andb_true_iff in H. destruct H as [H1 H2]. apply orb_true_iff in N. apply orb_true_iff.
      destruct N as [N|N]; [left|right; exact (IH N vs H2)]. destruct p; try discriminate N. destruct o; [reflexivity|discriminate H1]. }
  induction s as [p| |fs IH|fs IH|s IH|s IH|alts IH|c n e s IH|c s IH] using sty_ind2; intros ine v T H.
  - exact (tame_regular_prim p v T).
  - reflexivity.
  - destruct v; try reflexivity. exact (F fs IH ine _ T H).
  - destruct v; try reflexivity. exact (F fs IH ine _ T H).
  - destruct v; try reflexivity. cbn in T, H |- *. apply andb_true_iff in T. destruct T as [T N]. rewrite N, orb_true_l, andb_true_r.
    apply forallb_forall. intros x I. apply IH; [exact T|exact (proj1 (forallb_forall _ _) H x I)].
  - destruct v; try reflexivity. cbn in T, H |- *. apply andb_true_iff in T. destruct T as [T N]. rewrite N, orb_true_l, andb_true_r.
    apply forallb_forall. intros x I. apply IH; [exact T|exact (proj1 (forallb_forall _ _) H x I)].
  - destruct v as [| | | | | | | | |i x|]; try reflexivity. rewrite has_choice in H. rewrite regular_choice. cbn [tame] in T.
    revert i T H. induction IH as [|[n p s] fs P _ IH]; intros [|i] T H; try reflexivity; apply andb_true_iff in T; destruct T as [T1 T2].
    + exact (P ine x T1 H).
    + exact (IH i T2 H).
  - exact (IH ine v T H).
  - cbn [has] in H. apply andb_true_iff in H. exact (IH ine v T (proj2 H)).
Qed.
