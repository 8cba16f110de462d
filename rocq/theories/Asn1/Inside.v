(** Types occurring in a type, and properties of all of them. *)
From Coq Require Import List String ZArith NArith Bool Lia.
From Verif Require Import Asn1.Types Py.Eval Asn1.EqbFacts Asn1.Bytes Asn1.Der Asn1.RoundTrip Asn1.Total.
Import ListNotations.
Open Scope string_scope.
Open Scope list_scope.

Section codec.
Context {Cdc : codec}.

(** [inside u t]: [u] is [t] or the type of a component of it, at any depth. *)
Inductive inside : asn1 -> asn1 -> Prop :=
| in_here : forall t, inside t t
| in_seq : forall u s m fs f, In f fs -> inside u (ftype f) -> inside u (TSeq s m fs)
| in_choice : forall u m fs f, In f fs -> inside u (ftype f) -> inside u (TChoice m fs)
| in_of : forall u s m t, inside u t -> inside u (TOf s m (Some t)).

Section every.
  Variable P : asn1 -> bool.
  Fixpoint everywhere (t : asn1) : bool :=
    let fix go (fs : list field) : bool :=
      match fs with [] => true | Fld _ _ t' _ _ :: fs' => everywhere t' && go fs' end in
    P t && match t with
           | TSeq _ _ fs | TChoice _ fs => go fs
           | TOf _ _ (Some t') => everywhere t'
           | _ => true
           end.
  Definition everywhere_all (fs : list field) : bool := forallb (fun f => everywhere (ftype f)) fs.
  Lemma everywhere_go : forall fs,
    (fix go (fs : list field) : bool := match fs with [] => true | Fld _ _ t' _ _ :: fs' => everywhere t' && go fs' end) fs
    = everywhere_all fs.
  Proof. induction fs as [|[n p t d o] fs IH]; [reflexivity|]. unfold everywhere_all in *. cbn [forallb ftype]. rewrite IH. reflexivity. Qed.
  Lemma everywhere_inside : forall u t, inside u t -> everywhere t = true -> P u = true.
  Proof.
    intros u t H. induction H as [t|u s m fs f I _ IH|u m fs f I _ IH|u s m t _ IH]; intro E.
    { destruct t; cbn [everywhere] in E; apply andb_true_iff in E; exact (proj1 E). }
    all: cbn [everywhere] in E; apply andb_true_iff in E; destruct E as [A B].
    - rewrite everywhere_go in B. exact (IH (proj1 (forallb_forall _ _) B f I)).
    - rewrite everywhere_go in B. exact (IH (proj1 (forallb_forall _ _) B f I)).
    - exact (IH B).
  Qed.
End every.

(** ** Outermost tags *)

(** [starts t g]: an encoding of type [t] may start with a tag of the class and number
    of [g]. *)
Inductive starts : asn1 -> tag -> Prop :=
| st_tagged : forall t ts g, tags (meta_of t) = ts ++ [g] -> starts t g
| st_choice : forall m alts f g, tags m = [] -> In f alts -> starts (ftype f) g -> starts (TChoice m alts) g
| st_any : forall m g, tags m = [] -> starts (TPrim KAny m) g.

(** [None]: any tag. *)
Fixpoint outer (t : asn1) : list (option tag) :=
  match rev (tags (meta_of t)) with
  | g :: _ => [Some g]
  | [] => match t with
          | TChoice _ alts => (fix go (fs : list field) := match fs with [] => [] | Fld _ _ t' _ _ :: fs' => outer t' ++ go fs' end) alts
          | TPrim KAny _ => [None]
          | _ => []
          end
  end.
Lemma outer_go : forall fs,
  (fix go (fs : list field) := match fs with [] => [] | Fld _ _ t' _ _ :: fs' => outer t' ++ go fs' end) fs
  = flat_map (fun f => outer (ftype f)) fs.
Proof. induction fs as [|[n p t d o] fs IH]; [reflexivity|]. cbn [flat_map ftype]. rewrite IH. reflexivity. Qed.
Lemma outer_tagged : forall t g l, rev (tags (meta_of t)) = g :: l -> outer t = [Some g].
Proof. intros t g l H. destruct t; cbn [outer]; rewrite H; reflexivity. Qed.
Lemma starts_outer : forall t g, starts t g -> In (Some g) (outer t) \/ In None (outer t).
Proof.
  intros t g H. induction H as [t ts g E|m alts f g E I _ IH|m g E].
  - left. rewrite (outer_tagged t g (rev ts)); [left; reflexivity|]. rewrite E, rev_app_distr. reflexivity.
  - cbn [outer meta_of]. rewrite E. cbn [rev]. rewrite outer_go.
    destruct IH as [IH|IH]; [left|right]; apply in_flat_map; exists f; auto.
  - right. cbn [outer meta_of]. rewrite E. left. reflexivity.
Qed.
Definition apart (a b : list (option tag)) : bool :=
  forallb (fun x => forallb (fun y => match x, y with Some g, Some h => negb (tag_eqb g h) | _, _ => false end) b) a.
Lemma apart_sym : forall a b, apart a b = true -> apart b a = true.
Proof.
  intros a b H. apply forallb_forall. intros y Y. apply forallb_forall. intros x X.
  pose proof (proj1 (forallb_forall _ _) (proj1 (forallb_forall _ _) H x X) y Y) as K. cbv beta in K.
  destruct x as [g|], y as [h|]; try discriminate. rewrite tag_eqb_sym. exact K.
Qed.
Fixpoint pairwise {A} (f : A -> A -> bool) (l : list A) : bool :=
  match l with [] => true | x :: l' => forallb (f x) l' && pairwise f l' end.
Lemma pairwise_sound : forall {A} (f : A -> A -> bool) l, (forall x y, f x y = true -> f y x = true) -> pairwise f l = true ->
  forall i j x y, i <> j -> nth_error l i = Some x -> nth_error l j = Some y -> f x y = true.
Proof.
  intros A f l Sy. induction l as [|a l IH]; intros H i j x y N Hx Hy; [destruct i; discriminate|].
  cbn [pairwise] in H. apply andb_true_iff in H. destruct H as [H1 H2].
  destruct i as [|i], j as [|j]; cbn [nth_error] in *.
  - congruence.
  - assert (a = x) by congruence. subst. exact (proj1 (forallb_forall _ _) H1 y (nth_error_In _ _ Hy)).
  - assert (a = y) by congruence. subst. apply Sy. exact (proj1 (forallb_forall _ _) H1 x (nth_error_In _ _ Hx)).
  - exact (IH H2 i j x y ltac:(congruence) Hx Hy).
Qed.
Definition alts_apart (t : asn1) : bool :=
  match t with TChoice _ alts => pairwise (fun f g => apart (outer (ftype f)) (outer (ftype g))) alts | _ => true end.
Lemma alts_apart_sound : forall m alts, alts_apart (TChoice m alts) = true ->
  forall i j f g a b, i <> j -> nth_error alts i = Some f -> nth_error alts j = Some g ->
  starts (ftype f) a -> starts (ftype g) b -> tcls a <> tcls b \/ tnum a <> tnum b.
Proof.
  intros m alts H i j f g a b N F G A B. cbn [alts_apart] in H.
  pose proof (pairwise_sound _ _ (fun x y => apart_sym (outer (ftype x)) (outer (ftype y))) H i j f g N F G) as K. cbv beta in K.
  assert (Q : forall x y, In x (outer (ftype f)) -> In y (outer (ftype g)) ->
    match x, y with Some g, Some h => negb (tag_eqb g h) | _, _ => false end = true).
  { intros x y X Y. exact (proj1 (forallb_forall _ _) (proj1 (forallb_forall _ _) K x X) y Y). }
  destruct (starts_outer _ _ A) as [A'|A'], (starts_outer _ _ B) as [B'|B']; specialize (Q _ _ A' B'); try discriminate.
  apply negb_true_iff in Q. destruct (N.eq_dec (tnum a) (tnum b)) as [E|E]; [left|right; exact E].
  intro E'. unfold tag_eqb in Q. rewrite E, E', N.eqb_refl in Q. destruct (tcls b); discriminate.
Qed.

(** ** Named values *)

Fixpoint nodup_b {A} (eqb : A -> A -> bool) (l : list A) : bool :=
  match l with [] => true | x :: l' => negb (existsb (eqb x) l') && nodup_b eqb l' end.
Lemma nodup_b_sound : forall {A} (eqb : A -> A -> bool) l, (forall x, eqb x x = true) -> nodup_b eqb l = true -> NoDup l.
Proof.
  intros A eqb l R. induction l as [|x l IH]; intro H; [constructor|]. cbn in H. apply andb_true_iff in H. destruct H as [H1 H2].
  constructor; [|exact (IH H2)]. intro I. apply negb_true_iff in H1.
  assert (existsb (eqb x) l = true) by (apply existsb_exists; exists x; auto). congruence.
Qed.
Definition names_ok (t : asn1) : bool :=
  nodup_b String.eqb (map fst (nvals (meta_of t))) && nodup_b Z.eqb (map snd (nvals (meta_of t))).
Lemma names_ok_sound : forall t, names_ok t = true ->
  NoDup (map fst (nvals (meta_of t))) /\ NoDup (map snd (nvals (meta_of t))).
Proof.
  intros t H. apply andb_true_iff in H. destruct H as [A B].
  split; eapply nodup_b_sound; [exact String.eqb_refl|exact A|exact Z.eqb_refl|exact B].
Qed.

(** ** Governors of open components *)

Definition governed (t : asn1) : bool :=
  match t with
  | TSeq _ _ fs => forallb (fun f => match fopen f with
                                     | Some (n, _) => existsb (fun g => String.eqb (fname g) n
                                         && match ftype g, fpres g with TPrim (KOid | KInt) _, Req => true | _, _ => false end) fs
                                     | None => true
                                     end) fs
  | _ => true
  end.
Lemma governed_sound : forall s m fs, governed (TSeq s m fs) = true -> forall f n d, In f fs -> fopen f = Some (n, d) ->
  exists g k mg, In g fs /\ fname g = n /\ fpres g = Req /\ ftype g = TPrim k mg /\ (k = KOid \/ k = KInt).
Proof.
  intros s m fs H f n d I O. pose proof (proj1 (forallb_forall _ _) H f I) as K. cbv beta in K. rewrite O in K.
  apply existsb_exists in K. destruct K as (g & G & K). apply andb_true_iff in K. destruct K as [K1 K2].
  apply String.eqb_eq in K1. destruct (ftype g) as [k mg| | |] eqn:T; try discriminate.
  exists g, k, mg. destruct k, (fpres g) eqn:P; try discriminate; repeat split; auto.
Qed.

(** A component governed by a name that is not a component can never be opened. *)
Definition ungoverned (f : field) (fs : list field) : bool :=
  match fopen f with Some (n, _) => negb (existsb (String.eqb n) (fnames fs)) | None => false end.
Lemma slot_of_other : forall fs vs n, existsb (String.eqb n) (fnames fs) = false -> slot_of fs vs n = None.
Proof.
  induction fs as [|f fs IH]; intros vs n H; [reflexivity|]. cbn [fnames map existsb] in H. apply orb_false_iff in H. destruct H as [A B].
  destruct vs as [|o vs]; [reflexivity|]. cbn [slot_of]. rewrite String.eqb_sym, A. exact (IH vs n B).
Qed.
Lemma open_slots_ungoverned : forall Op fs0 vs0 fs vs vs', open_slots Op fs0 vs0 fs vs = Ok vs' ->
  forall i f v, nth_error fs i = Some f -> nth_error vs i = Some (Some v) -> ungoverned f fs0 = true -> False.
Proof.
  intros Op fs0 vs0. induction fs as [|f0 fs IH]; intros [|o vs] vs' H i f v F V U; try discriminate; [destruct i; discriminate|].
  cbn [open_slots] in H. apply rbind_ok in H. destruct H as (o' & A & H). apply rbind_ok in H. destruct H as (r & B & _).
  destruct i as [|i]; cbn [nth_error] in F, V; [|exact (IH _ _ B i f v F V U)].
  assert (f0 = f) by congruence. assert (o = Some v) by congruence. subst f0 o. unfold ungoverned in U. unfold open_slot in A.
  destruct (fopen f) as [[n d]|]; [|discriminate]. apply negb_true_iff in U. rewrite (slot_of_other _ _ _ U) in A. cbn [gov_key] in A.
  rewrite U in A. discriminate.
Qed.

Theorem ungoverned_never_opens : forall Op isset m fs f, In f fs -> fpres f = Req -> ungoverned f fs = true ->
  forall s v rest, decode_with (Some Op) (TSeq isset m fs) s <> Ok (v, rest).
Proof.
  intros Op isset m fs f I R U s v rest H. unfold decode_with, dec_one in H. destruct (tok _); [|discriminate].
  apply rbind_ok in H. destruct H as ([[[ts tlv] c] r] & _ & B). apply rbind_ok in B. destruct B as (v' & D & _).
  cbn [comp_of c_val] in D. rewrite dec_seq_val in D. destruct (constructed ts); [|discriminate].
  destruct fs as [|f0 fs0]; [destruct I|]. set (fs := f0 :: fs0) in *. cbv zeta in D. apply rbind_ok in D. destruct D as (vs & D & K).
  assert (F : Forall2 slot_ok (map (fcomp (Some Op)) fs) vs).
  { destruct isset; [apply rbind_ok in D; destruct D as (sl & _ & D); exact (fill_ok _ _ _ D)|exact (dec_seq_ok _ _ _ _ D)]. }
  apply slot_present in F.
  assert (E : existsb (fun g => is_some (fopen g)) fs = true).
  { apply existsb_exists. exists f. split; [exact I|]. unfold ungoverned in U. destruct (fopen f); [reflexivity|discriminate]. }
  rewrite E in K. apply rbind_ok in K. destruct K as (vs' & A & _).
  destruct (In_nth_error _ _ I) as [i Hi].
  assert (V : exists x, nth_error vs i = Some (Some x)).
  { clear - F Hi R. revert i Hi. induction F as [|g o fs vs P F IH]; intros [|i] Hi; try discriminate; cbn [nth_error] in *.
    - assert (g = f) by congruence. subst g. unfold present_ok in P. rewrite R in P. destruct o as [x|]; [|congruence]. exists x. reflexivity.
    - exact (IH i Hi). }
  destruct V as [x V]. exact (open_slots_ungoverned _ _ _ _ _ _ A i f x Hi V U).
Qed.

End codec.
