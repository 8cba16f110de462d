(** Bounds that are implied: schema objects that accept every value the RFC's type has, and
    maybe more. *)
From Coq Require Import List String ZArith NArith Bool Lia.
From Verif Require Import Asn1.Types Py.Eval Asn1.EqbFacts Asn1.Bytes Asn1.Der Asn1.Wf Spec.X680 Spec.Spelling Spec.Agree Spec.Conform.
Import ListNotations.
Open Scope string_scope.
Open Scope list_scope.

(** Every value satisfying [s] satisfies [c]. *)
Definition implies (s : scon) (c : cons) : bool :=
  if same_con s c then true
  else match s, c with
       | SizeC lo hi, CSize l h => Z.leb l (Z.of_N lo) && below hi h
       | RangeC (Some lo) hi, CRange l h => Z.leb l lo && match hi, h with _, None => true | Some a, Some b => Z.leb a b | None, Some _ => false end
       | FromC l, CAlpha l' => forallb (fun x => existsb (N.eqb x) l') l
       | _, _ => false
       end.
Definition covers (cs : list scon) (c : cons) : bool := forallb (fun a => existsb (fun s => implies s a) cs) (atoms c).

(** A component that is absent from values sparing [sk]. *)
Definition spared_slot (sk : list exempt) (n : string) (p : need) : bool := match p with Optional => spared sk n | _ => false end.
Section looser.
Variable sk : list exempt.
Fixpoint looser_but (s : sty) (cs : list scon) (t : asn1) {struct s} : bool :=
  match s, t with
  | ATag _ _ _ s', _ => looser_but s' cs t
  | ACon c s', _ => looser_but s' (c :: cs) t
  | APrim p, TPrim _ m => covers (built_in p ++ cs) (spec m)
  | AAny, TPrim _ m => covers cs (spec m)
  | ASeq fs, TSeq _ m gs | ASet fs, TSeq _ m gs =>
      seq_cons false cs (fnames gs) (spec m)
      && (fix go (fs : list sfield) (gs : list field) {struct fs} : bool :=
            match fs, gs with
            | [], [] => true
            | SF n p s' :: fs', Fld _ _ t' _ _ :: gs' => (if spared_slot sk n p then true else looser_but s' [] t') && go fs' gs'
            | _, _ => false
            end) fs gs
  | ASeqOf s', TOf _ m (Some t') | ASetOf s', TOf _ m (Some t') => covers cs (spec m) && looser_but s' [] t'
  | AChoice fs, TChoice m gs =>
      (fix go (fs : list sfield) (gs : list field) {struct fs} : bool :=
         match fs, gs with
         | [], _ => true
         | SF n _ s' :: fs', Fld _ _ t' _ _ :: gs' => (if spared sk n then true else looser_but s' [] t') && go fs' gs'
         | _, _ => false
         end) fs gs
  | _, _ => false
  end.
End looser.
Notation looser := (looser_but []).

Lemma implies_ok : forall s c v names, implies s c = true -> measured v = true -> sok s v = true -> csat names c v = true.
Proof.
  intros s c v names I M H. unfold implies in I. destruct (same_con s c) eqn:S; [rewrite (same_con_ok s c v names S M); exact H|].
  destruct s as [lo hi| |[lo|] hi| |l|]; destruct c as [| |l0 h0|l0 h0| |l0|]; try discriminate I.
  - exact (stronger_ok (SizeC lo hi) (CSize l0 h0) v names I H).
  - apply andb_true_iff in I. destruct I as [A B]. apply Z.leb_le in A. cbn [sok] in H. cbn [csat].
    replace (vint v) with (number_of v) by (destruct v; reflexivity). destruct (number_of v) as [z|]; [|discriminate H].
    apply andb_true_iff in H. destruct H as [H1 H2]. apply Z.leb_le in H1. apply andb_true_iff. split; [apply Z.leb_le; lia|].
    unfold leb_hi. destruct h0 as [b|]; [|reflexivity]. destruct hi as [a|]; [|discriminate B]. apply Z.leb_le in B, H2. apply Z.leb_le. lia.
  - cbn [sok csat] in *. destruct v; try discriminate H; try (destruct M; fail).
    all: apply forallb_forall; intros x J; pose proof (proj1 (forallb_forall _ _) H x J) as K; cbv beta in K; apply existsb_exists in K;
      destruct K as (y & Y & Q); apply N.eqb_eq in Q; subst y; exact (proj1 (forallb_forall _ _) I x Y).
Qed.
Lemma covers_ok : forall cs c v names, covers cs c = true -> measured v = true -> forallb (fun s => sok s v) cs = true -> csat names c v = true.
Proof.
  intros cs c v names W M H. rewrite csat_atoms. apply forallb_forall. intros a I. pose proof (proj1 (forallb_forall _ _) W a I) as K. cbv beta in K.
  apply existsb_exists in K. destruct K as (s & J & K). exact (implies_ok s a v names K M (proj1 (forallb_forall _ _) H s J)).
Qed.

Definition looser_fields (sk : list exempt) : list sfield -> list field -> bool :=
  fix go (fs : list sfield) (gs : list field) {struct fs} : bool :=
  match fs, gs with
  | [], [] => true
  | SF n p s' :: fs', Fld _ _ t' _ _ :: gs' => (if spared_slot sk n p then true else looser_but sk s' [] t') && go fs' gs'
  | _, _ => false
  end.
Definition looser_alts (sk : list exempt) : list sfield -> list field -> bool :=
  fix go (fs : list sfield) (gs : list field) {struct fs} : bool :=
  match fs, gs with
  | [], _ => true
  | SF n _ s' :: fs', Fld _ _ t' _ _ :: gs' => (if spared sk n then true else looser_but sk s' [] t') && go fs' gs'
  | _, _ => false
  end.

Section allows.
Variable sk : list exempt.
Definition accepted (f : sfield) : Prop := forall cs t v, looser_but sk (sf_type f) cs t = true -> shaped (sf_type f) v = true -> spares sk (sf_type f) v = true ->
  forallb (fun c => sok c v) cs = true -> bounded (sf_type f) v = true -> allowed t v = true.
Lemma looser_length : forall fs gs vs, looser_fields sk fs gs = true -> components shaped fs vs = true -> List.length vs = List.length (fnames gs).
Proof.
  intros fs. induction fs as [|[n p s] fs IH]; intros [|[n' q t d o] gs] [|v vs] A H; try discriminate A; try discriminate H; [reflexivity|].
  cbn [looser_fields components] in *. fold (looser_fields sk) in A. apply andb_true_iff in A. apply andb_true_iff in H. cbn. f_equal. exact (IH gs vs (proj2 A) (proj2 H)).
Qed.
Lemma looser_parts : forall fs, Forall accepted fs -> forall gs vs, looser_fields sk fs gs = true -> components shaped fs vs = true ->
  spare_fields sk fs vs = true -> components bounded fs vs = true -> parts allowed gs vs = true.
Proof.
  induction fs as [|[n p s] fs IH]; intros F [|[n' q t d o] gs] vs A S SP B; try discriminate A.
  - destruct vs; [reflexivity|discriminate S].
  - inversion F as [|? ? F1 F2]; subst. destruct vs as [|w vs]; [discriminate S|]. cbn [looser_fields components parts] in *. fold (looser_fields sk) in A.
    cbn [spare_fields] in SP. fold (spare_fields sk) in SP.
    apply andb_true_iff in A, S, SP, B. destruct A as [A AS], S as [S SS], SP as [SP SPS], B as [B BS]. rewrite (IH F2 gs vs AS SS SPS BS), andb_true_r.
    destruct w as [x|]; [|reflexivity]. cbn [slot_spares] in SP.
    assert (K : spares sk s x = true /\ looser_but sk s [] t = true).
    { destruct (encoded p (Some x)) eqn:EN.
      - apply andb_true_iff in SP. destruct SP as [_ SP]. destruct (spared sk n) eqn:SN; [discriminate SP|]. split; [exact SP|].
        unfold spared_slot in A. rewrite SN in A. destruct p; exact A.
      - destruct (excluded sk n); [discriminate SP|]. split; [exact SP|]. destruct p; try discriminate EN. exact A. }
    exact (F1 [] t x (proj2 K) S (proj1 K) eq_refl B).
Qed.
Lemma looser_part : forall fs, Forall accepted fs -> forall gs i x, looser_alts sk fs gs = true -> alternative shaped fs i x = true ->
  match nth_error fs i with Some (SF n _ s) => if spared sk n then false else spares sk s x | None => true end = true -> alternative bounded fs i x = true -> part allowed gs i x = true.
Proof.
  induction fs as [|[n p s] fs IH]; intros F gs i x A S SP B; [destruct i; discriminate S|]. destruct gs as [|[n' q t d o] gs]; [discriminate A|].
  inversion F as [|? ? F1 F2]; subst. cbn [looser_alts] in A. fold (looser_alts sk) in A. apply andb_true_iff in A. destruct A as [A AS].
  destruct i as [|i]; cbn [part alternative nth_error] in *; [|exact (IH F2 gs i x AS S SP B)].
  destruct (spared sk n); [discriminate SP|]. exact (F1 [] t x A S SP eq_refl B).
Qed.

Lemma looser_allows_but : forall s cs t v, looser_but sk s cs t = true -> shaped s v = true -> spares sk s v = true -> forallb (fun c => sok c v) cs = true -> bounded s v = true ->
  allowed t v = true.
Proof.
  intros s. induction s as [p| |fs IH|fs IH|s IH|s IH|alts IH|c n e s IH|c s IH] using sty_ind2; intros cs t v A H SP C B; cbn [looser_but] in A.
  - destruct t as [k m| | |]; try discriminate A. cbn [allowed shaped] in *. apply (covers_ok _ _ v [] A (shape_measured p v H)).
    rewrite forallb_app, (built_in_ok p v H). exact C.
  - destruct t as [k m| | |]; try discriminate A. cbn [allowed]. apply (covers_ok _ _ v [] A); [|exact C]. destruct v; try discriminate H; reflexivity.
  - destruct t as [|b m gs| |]; try discriminate A. apply andb_true_iff in A. destruct A as [A1 A2]. destruct v; try discriminate H. cbn [shaped bounded allowed] in *.
    pose proof (seq_cons_ok _ _ _ _ _ A1 (looser_length fs gs vs A2 H) C) as K. apply andb_true_iff. split; [destruct (ctruthy (spec m)); [|reflexivity]; cbn [negb andb orb] in *; apply negb_false_iff, K|].
    exact (looser_parts fs IH gs vs A2 H SP B).
  - destruct t as [|b m gs| |]; try discriminate A. apply andb_true_iff in A. destruct A as [A1 A2]. destruct v; try discriminate H. cbn [shaped bounded allowed] in *.
    pose proof (seq_cons_ok _ _ _ _ _ A1 (looser_length fs gs vs A2 H) C) as K. apply andb_true_iff. split; [destruct (ctruthy (spec m)); [|reflexivity]; cbn [negb andb orb] in *; apply negb_false_iff, K|].
    exact (looser_parts fs IH gs vs A2 H SP B).
  - destruct t as [| |b m o|]; try discriminate A. destruct o as [t'|]; try discriminate A. apply andb_true_iff in A. destruct A as [A1 A2].
    destruct v; try discriminate H. cbn [allowed bounded shaped] in *. rewrite (covers_ok _ _ (VList vs) [] A1 eq_refl C). cbn [andb].
    apply forallb_forall. intros x I. exact (IH [] t' x A2 (proj1 (forallb_forall _ _) H x I) (proj1 (forallb_forall _ _) SP x I) eq_refl (proj1 (forallb_forall _ _) B x I)).
  - destruct t as [| |b m o|]; try discriminate A. destruct o as [t'|]; try discriminate A. apply andb_true_iff in A. destruct A as [A1 A2].
    destruct v; try discriminate H. cbn [allowed bounded shaped] in *. rewrite (covers_ok _ _ (VList vs) [] A1 eq_refl C). cbn [andb].
    apply forallb_forall. intros x I. exact (IH [] t' x A2 (proj1 (forallb_forall _ _) H x I) (proj1 (forallb_forall _ _) SP x I) eq_refl (proj1 (forallb_forall _ _) B x I)).
  - destruct t as [| | |m gs]; try discriminate A. destruct v; try discriminate H. cbn [allowed bounded shaped] in *.
    rewrite spares_choice in SP. exact (looser_part alts IH gs i v A H SP B).
  - cbn [bounded shaped] in *. exact (IH cs t v A H SP C B).
  - cbn [bounded shaped] in *. apply andb_true_iff in B. destruct B as [B1 B2]. apply (IH (c :: cs) t v A H SP); [|exact B2]. cbn [forallb]. rewrite B1. exact C.
Qed.
End allows.
Lemma looser_allows : forall s cs t v, looser s cs t = true -> shaped s v = true -> forallb (fun c => sok c v) cs = true -> bounded s v = true ->
  allowed t v = true.
Proof. intros s cs t v A H. exact (looser_allows_but [] s cs t v A H (spares_all s v)). Qed.
