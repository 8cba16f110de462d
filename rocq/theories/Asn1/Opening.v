(** Decoding with decodeOpenTypes is decoding without, followed by opening the open
    components of the value. *)
From Coq Require Import List String ZArith NArith Bool Lia.
From Verif Require Import Asn1.Types Py.Eval Asn1.EqbFacts Asn1.Bytes Asn1.Der Asn1.Wf Asn1.RoundTrip Asn1.Total Asn1.Open Asn1.Inside Asn1.OpenDepth.
Import ListNotations.
Open Scope string_scope.
Open Scope list_scope.

Section codec.
Context {Cdc : codec}.

(** What an absent component holds after decoding. *)
Definition left_out (f : field) : option aval := match fpres f with Def => fdef f | _ => None end.
Definition octets_of (v : aval) : Prop :=
  match v with VOcts _ => True | VList l => forall x, In x l -> exists b, x = VOcts b | _ => False end.

(** [opens_to R t v w]: [w] is [v] with the open components opened by the registries [R].
    The governing component is looked up among all the components [vs0] of the SEQUENCE;
    [object R u b w]: the octets [b] decode (without opening) to a value of the registered
    type [u], and [w] is that value opened in turn. *)
Inductive opens_to (R : registry) : asn1 -> aval -> aval -> Prop :=
| op_closed : forall t v, everywhere closed t = true -> opens_to R t v v
| op_of : forall s m t l l', Forall2 (opens_to R t) l l' -> opens_to R (TOf s m (Some t)) (VList l) (VList l')
| op_alt : forall m alts i f v w, nth_error alts i = Some f -> opens_to R (ftype f) v w -> opens_to R (TChoice m alts) (VAlt i v) (VAlt i w)
| op_seq : forall m fs vs ws, components R fs vs fs vs ws -> opens_to R (TSeq false m fs) (VSeq vs) (VSeq ws)
with components (R : registry) : list field -> list (option aval) -> list field -> list (option aval) -> list (option aval) -> Prop :=
| co_nil : forall fs0 vs0, components R fs0 vs0 [] [] []
| co_cons : forall fs0 vs0 f fs o vs o' ws, component R fs0 vs0 f o o' -> components R fs0 vs0 fs vs ws ->
    components R fs0 vs0 (f :: fs) (o :: vs) (o' :: ws)
with component (R : registry) : list field -> list (option aval) -> field -> option aval -> option aval -> Prop :=
| cm_absent : forall fs0 vs0 f, component R fs0 vs0 f (left_out f) (left_out f)
| cm_closed : forall fs0 vs0 f v w, fopen f = None -> opens_to R (ftype f) v w -> component R fs0 vs0 f (Some v) (Some w)
| cm_unknown : forall fs0 vs0 f v w n d k, fopen f = Some (n, d) -> gov_key (slot_of fs0 vs0 n) = Some k -> R d k = None ->
    opens_to R (ftype f) v w -> component R fs0 vs0 f (Some v) (Some w)
| cm_one : forall fs0 vs0 f n d k u b w, fopen f = Some (n, d) -> gov_key (slot_of fs0 vs0 n) = Some k -> R d k = Some u ->
    object R u b w -> component R fs0 vs0 f (Some (VOcts b)) (Some w)
| cm_many : forall fs0 vs0 f n d k u bs ws, fopen f = Some (n, d) -> gov_key (slot_of fs0 vs0 n) = Some k -> R d k = Some u ->
    Forall2 (object R u) bs ws -> component R fs0 vs0 f (Some (VList (map VOcts bs))) (Some (VList ws))
with object (R : registry) : asn1 -> bytes -> aval -> Prop :=
| ob_made : forall u b v r w, decode u b = Ok (v, r) -> opens_to R u v w -> object R u b (VTyped u (Some w)).

(** [blocked R t v]: some open component of [v] cannot be opens_to: its governing component is
    absent or neither an OBJECT IDENTIFIER nor an INTEGER, or the octets do not decode to a
    value of the registered type that can be opened in turn. *)
Inductive blocked (R : registry) : asn1 -> aval -> Prop :=
| bl_of : forall s m t l v, In v l -> blocked R t v -> blocked R (TOf s m (Some t)) (VList l)
| bl_alt : forall m alts i f v, nth_error alts i = Some f -> blocked R (ftype f) v -> blocked R (TChoice m alts) (VAlt i v)
| bl_comp : forall s m fs vs i f v, nth_error fs i = Some f -> nth_error vs i = Some (Some v) -> blocked R (ftype f) v ->
    blocked R (TSeq s m fs) (VSeq vs)
| bl_governor : forall s m fs vs i f v n d, nth_error fs i = Some f -> nth_error vs i = Some (Some v) -> fopen f = Some (n, d) ->
    gov_key (slot_of fs vs n) = None -> blocked R (TSeq s m fs) (VSeq vs)
| bl_one : forall s m fs vs i f n d k u b, nth_error fs i = Some f -> nth_error vs i = Some (Some (VOcts b)) -> fopen f = Some (n, d) ->
    gov_key (slot_of fs vs n) = Some k -> R d k = Some u -> misfit R u b -> blocked R (TSeq s m fs) (VSeq vs)
| bl_many : forall s m fs vs i f n d k u b l, nth_error fs i = Some f -> nth_error vs i = Some (Some (VList l)) -> fopen f = Some (n, d) ->
    gov_key (slot_of fs vs n) = Some k -> R d k = Some u -> In (VOcts b) l -> misfit R u b -> blocked R (TSeq s m fs) (VSeq vs)
| bl_shape : forall s m fs vs i f v n d k u, nth_error fs i = Some f -> nth_error vs i = Some (Some v) -> fopen f = Some (n, d) ->
    gov_key (slot_of fs vs n) = Some k -> R d k = Some u -> ~ octets_of v -> blocked R (TSeq s m fs) (VSeq vs)
with misfit (R : registry) : asn1 -> bytes -> Prop :=
| mf_rejected : forall u b, (forall p, decode u b <> Ok p) -> misfit R u b
| mf_blocked : forall u b v r, decode u b = Ok (v, r) -> blocked R u v -> misfit R u b.

(** ** Types without open components *)

Lemma dec_closed : forall O t, everywhere closed t = true -> forall ts tlv c, dec_val (Some O) t ts tlv c = dec_val None t ts tlv c.
Proof.
  intros O t. induction t as [k m|s m fs IH|s m t IH|s m|m fs IH] using asn1_ind2; intros OP ts tlv c.
  - reflexivity.
  - cbn [everywhere] in OP. rewrite everywhere_go in OP. apply andb_true_iff in OP. destruct OP as [CL EV]. cbn [closed] in CL.
    assert (NO : existsb (fun f => is_some (fopen f)) fs = false).
    { clear - CL. induction fs as [|f fs IHf]; [reflexivity|]. cbn [forallb existsb] in *. apply andb_true_iff in CL. destruct CL as [A B].
      rewrite (IHf B). destruct (is_some (fopen f)); [discriminate A|reflexivity]. }
    assert (CA : Forall2 (comp_agree (List.length c)) (map (fcomp (Some O)) fs) (map (fcomp None) fs)).
    { unfold everywhere_all in EV. clear CL NO. induction fs as [|f fs IHf]; [constructor|]. inversion IH as [|? ? I1 I2]; subst.
      cbn [forallb] in EV. apply andb_true_iff in EV. destruct EV as [E1 E2]. cbn [map]. constructor; [|exact (IHf I2 E2)].
      repeat split. intros ts' tlv' c' _. exact (I1 E1 ts' tlv' c'). }
    rewrite !dec_seq_val. rewrite NO.
    assert (E : (if s then let! sl := dec_set (List.length c) (map (fcomp (Some O)) fs) (map (fun _ => None) (map (fcomp (Some O)) fs)) c in fill (map (fcomp (Some O)) fs) sl
                 else dec_seq (List.length (map (fcomp (Some O)) fs)) (map (fcomp (Some O)) fs) c)
              = (if s then let! sl := dec_set (List.length c) (map (fcomp None) fs) (map (fun _ => None) (map (fcomp None) fs)) c in fill (map (fcomp None) fs) sl
                 else dec_seq (List.length (map (fcomp None) fs)) (map (fcomp None) fs) c)).
    { destruct s.
      - rewrite (dec_set_agree _ _ _ _ _ c CA (le_n _)). rewrite !map_map.
        destruct (dec_set _ _ _ c) as [sl| | |]; try reflexivity. cbn [rbind]. apply (fill_agree _ _ _ CA).
      - rewrite !map_length. apply (dec_seq_agree _ _ _ _ c CA (le_n _)). }
    cbv zeta. rewrite E. reflexivity.
  - cbn [everywhere] in OP. apply andb_true_iff in OP. destruct OP as [_ OP]. cbn [dec_val]. destruct (constructed ts); [|reflexivity].
    rewrite (dec_list_agree (List.length c) _ _ (mkC Req None (tag_map t) (is_any t) (dec_val None t)) c); [reflexivity| |lia].
    repeat split. intros ts' tlv' c' _. exact (IH OP ts' tlv' c').
  - reflexivity.
  - cbn [everywhere] in OP. rewrite everywhere_go in OP. apply andb_true_iff in OP. destruct OP as [_ EV].
    assert (CA : Forall2 (comp_agree (List.length c)) (map (fcomp (Some O)) fs) (map (fcomp None) fs)).
    { unfold everywhere_all in EV. induction fs as [|f fs IHf]; [constructor|]. inversion IH as [|? ? I1 I2]; subst.
      cbn [forallb] in EV. apply andb_true_iff in EV. destruct EV as [E1 E2]. cbn [map]. constructor; [|exact (IHf I2 E2)].
      repeat split. intros ts' tlv' c' _. exact (I1 E1 ts' tlv' c'). }
    rewrite !dec_choice_val. cbv zeta. destruct (tags_eqb ts (tags m)).
    + rewrite (dec_run_agree _ _ _ c CA (le_n _)). reflexivity.
    + destruct (choose_agree _ _ _ ts CA) as [(i & k1 & k2 & -> & -> & (_ & _ & _ & _ & V))|[[-> ->]|[-> ->]]]; try reflexivity.
      cbn [rbind]. rewrite (V ts c c (le_n _)). reflexivity.
Qed.

(** ** Results of the two decoders *)

(** [x0] without, [x1] with opening.  [S]: the input is short enough for the bound on the
    nesting. *)
Definition rr {A} (S : Prop) (P : A -> A -> Prop) (B : A -> Prop) (x0 x1 : res A) : Prop :=
  (forall v, x1 = Ok v -> exists v0, x0 = Ok v0 /\ P v0 v) /\ (S -> forall v0, x0 = Ok v0 -> (exists v, x1 = Ok v) \/ B v0).
Lemma rr_bind : forall {A C} (S S' : Prop) P B P' B' (x0 x1 : res A) (f0 f1 : A -> res C),
  rr S P B x0 x1 -> (S' -> S) -> (forall a0 a1, x0 = Ok a0 -> P a0 a1 -> rr S' P' B' (f0 a0) (f1 a1)) ->
  (forall a0 c0, B a0 -> f0 a0 = Ok c0 -> B' c0) -> rr S' P' B' (rbind x0 f0) (rbind x1 f1).
Proof.
  intros A C S S' P B P' B' x0 x1 f0 f1 [X1 X2] SS F BB. split.
  - intros v H. apply rbind_ok in H. destruct H as (a1 & E1 & H). destruct (X1 _ E1) as (a0 & E0 & R0).
    destruct (F _ _ E0 R0) as [F1 _]. destruct (F1 _ H) as (v0 & G & Q). exists v0. rewrite E0. auto.
  - intros HS v0 H. apply rbind_ok in H. destruct H as (a0 & E0 & H). destruct (X2 (SS HS) _ E0) as [(a1 & E1)|HB].
    + destruct (X1 _ E1) as (a0' & E0' & R0). assert (a0' = a0) by congruence. subst a0'. rewrite E1. cbn [rbind].
      exact (proj2 (F _ _ E0 R0) HS _ H).
    + right. exact (BB _ _ HB H).
Qed.
Lemma rr_ok : forall {A} S (P : A -> A -> Prop) B a0 a1, P a0 a1 -> rr S P B (Ok a0) (Ok a1).
Proof. intros A S P B a0 a1 H. split; intros; [exists a0; split; [reflexivity|congruence]|left; eauto]. Qed.
Lemma rr_not : forall {A} S (P : A -> A -> Prop) B x, (forall a, x <> Ok a) -> rr S P B x x.
Proof. intros A S P B x N. split; intros; exfalso; eapply N; eassumption. Qed.
Lemma rr_weaken : forall {A} (S S' : Prop) (P : A -> A -> Prop) B x0 x1, rr S P B x0 x1 -> (S' -> S) -> rr S' P B x0 x1.
Proof. intros A S S' P B x0 x1 [X1 X2] H. split; [exact X1|auto]. Qed.

Section opening.
  Variables (R : registry) (O : opener) (lim : nat).
  Hypothesis none : forall d k, R d k = None -> O d k = None.
  Hypothesis some : forall d k u, R d k = Some u -> exists g, O d k = Some g /\ forall b,
    (forall w, g b = Ok w -> object R u b w) /\ ((List.length b < lim)%nat -> (exists w, g b = Ok w) \/ misfit R u b).

  Definition twin (t : asn1) : Prop := forall ts tlv c,
    rr (List.length c < lim)%nat (opens_to R t) (blocked R t) (dec_val None t ts tlv c) (dec_val (Some O) t ts tlv c).
  Definition part (X : option opener) (t : asn1) : comp := mkC Req None (tag_map t) (is_any t) (dec_val X t).

  Lemma one_twin : forall k0 k1 t s, c_map k0 = c_map k1 -> c_val k0 = dec_val None t -> c_val k1 = dec_val (Some O) t -> twin t ->
    rr (List.length s < lim + 2)%nat (fun p q => opens_to R t (fst p) (fst q) /\ snd p = snd q) (fun p => blocked R t (fst p)) (dec_one k0 s) (dec_one k1 s).
  Proof.
    intros k0 k1 t s M V0 V1 T. unfold dec_one. rewrite M, V0, V1. destruct (tok (c_map k1)); [|apply rr_not; discriminate].
    destruct (item (accepts (c_map k1)) s) as [[[[ts tlv] c] rest]| | |] eqn:I; try (apply rr_not; discriminate). cbn [rbind].
    apply descend_content in I. eapply rr_bind; [exact (T ts tlv c)|lia| |].
    - intros a0 a1 _ H. apply rr_ok. split; [exact H|reflexivity].
    - intros a0 c0 H E. inversion E; subst. exact H.
  Qed.

  Fixpoint fkey (i : nat) (fs : list field) (ts : list tag) : option (nat * field) :=
    match fs with [] => None | f :: fs' => if mem_tags ts (keys (fmap f)) then Some (i, f) else fkey (S i) fs' ts end.
  Fixpoint fdflt (i : nat) (fs : list field) : option (nat * field) :=
    match fs with [] => None | f :: fs' => if dflt (fmap f) then Some (i, f) else fdflt (S i) fs' end.
  Definition fchoose (fs : list field) (ts : list tag) : res (nat * field) :=
    match fkey 0 fs ts with
    | Some p => Ok p
    | None => match fdflt 0 fs with Some (i, f) => if is_any (ftype f) then Ok (i, f) else Unm | None => Err end
    end.
  Lemma choose_field : forall X fs ts, choose (map (fcomp X) fs) ts = let! (i, f) := fchoose fs ts in Ok (i, fcomp X f).
  Proof.
    intros X fs ts. unfold choose, fchoose.
    assert (K : forall i, find_key i (map (fcomp X) fs) ts = match fkey i fs ts with Some (j, f) => Some (j, fcomp X f) | None => None end).
    { induction fs as [|f fs IH]; intro i; [reflexivity|]. cbn [map find_key fkey]. change (c_map (fcomp X f)) with (fmap f).
      destruct (mem_tags ts (keys (fmap f))); [reflexivity|apply IH]. }
    assert (D : forall i, find_dflt i (map (fcomp X) fs) = match fdflt i fs with Some (j, f) => Some (j, fcomp X f) | None => None end).
    { clear K. induction fs as [|f fs IH]; intro i; [reflexivity|]. cbn [map find_dflt fdflt]. change (c_map (fcomp X f)) with (fmap f).
      destruct (dflt (fmap f)); [reflexivity|]. apply IH. }
    rewrite K, D. destruct (fkey 0 fs ts) as [[j f]|]; [reflexivity|]. destruct (fdflt 0 fs) as [[j f]|]; [|reflexivity].
    cbn [fcomp c_any]. destruct (is_any (ftype f)); reflexivity.
  Qed.

  Lemma fchoose_nth : forall fs ts i f, fchoose fs ts = Ok (i, f) -> nth_error fs i = Some f.
  Proof.
    intros fs ts i f H. pose proof (choose_field None fs ts) as C. rewrite H in C. cbn [rbind] in C. apply choose_in in C.
    rewrite nth_error_map in C. destruct (nth_error fs i) as [f'|] eqn:E; [|discriminate C].
    unfold fchoose in H. assert (K : forall gs j, fkey j gs ts = Some (i, f) -> (j <= i)%nat /\ nth_error gs (i - j) = Some f).
    { induction gs as [|g gs IH]; intros j K; [discriminate K|]. cbn [fkey] in K. destruct (mem_tags ts (keys (fmap g))).
      - inversion K; subst. rewrite Nat.sub_diag. split; [lia|reflexivity].
      - destruct (IH _ K) as [L G]. split; [lia|]. replace (i - j)%nat with (S (i - S j)) by lia. exact G. }
    assert (D : forall gs j, fdflt j gs = Some (i, f) -> (j <= i)%nat /\ nth_error gs (i - j) = Some f).
    { induction gs as [|g gs IH]; intros j D; [discriminate D|]. cbn [fdflt] in D. destruct (dflt (fmap g)).
      - inversion D; subst. rewrite Nat.sub_diag. split; [lia|reflexivity].
      - destruct (IH _ D) as [L G]. split; [lia|]. replace (i - j)%nat with (S (i - S j)) by lia. exact G. }
    rewrite <- E. replace i with (i - 0)%nat by lia. destruct (fkey 0 fs ts) as [[j g]|] eqn:KK.
    - inversion H; subst. exact (proj2 (K _ _ KK)).
    - destruct (fdflt 0 fs) as [[j g]|] eqn:DD; [|discriminate H]. destruct (is_any (ftype g)); [|discriminate H]. inversion H; subst. exact (proj2 (D _ _ DD)).
  Qed.

  Definition twins (fs : list field) : Prop := forall f, In f fs -> twin (ftype f).
  Lemma run_twin : forall fs s, twins fs ->
    rr (List.length s < lim)%nat (fun p q => fst (fst p) = fst (fst q) /\ snd p = snd q /\ exists f, nth_error fs (fst (fst p)) = Some f /\ opens_to R (ftype f) (snd (fst p)) (snd (fst q)))
      (fun p => exists f, nth_error fs (fst (fst p)) = Some f /\ blocked R (ftype f) (snd (fst p)))
      (dec_run (map (fcomp None) fs) s) (dec_run (map (fcomp (Some O)) fs) s).
  Proof.
    intros fs s T. unfold dec_run. rewrite !comps_map. destruct (tok (tmap_union (map fmap fs))); [|apply rr_not; discriminate].
    destruct (item _ s) as [[[[ts tlv] c] rest]| | |] eqn:I; try (apply rr_not; discriminate). cbn [rbind].
    apply descend_content in I. rewrite !choose_field. destruct (fchoose fs ts) as [[i f]| | |] eqn:C; try (apply rr_not; discriminate).
    cbn [rbind fcomp c_val]. apply fchoose_nth in C. eapply rr_bind; [exact (T f (nth_error_In _ _ C) ts tlv c)|lia| |].
    - intros a0 a1 _ H. apply rr_ok. cbn [fst snd]. repeat split. exists f. split; assumption.
    - intros a0 c0 H E. inversion E; subst. cbn [fst snd]. exists f. split; assumption.
  Qed.

  (** ** SEQUENCE *)

  Definition slot (f : field) (o o' : option aval) : Prop :=
    (o' = o /\ o = left_out f) \/ exists v w, o = Some v /\ o' = Some w /\ opens_to R (ftype f) v w.
  Inductive slots : list field -> list (option aval) -> list (option aval) -> Prop :=
  | sl_nil : slots [] [] []
  | sl_cons : forall f fs o vs o' ws, slot f o o' -> slots fs vs ws -> slots (f :: fs) (o :: vs) (o' :: ws).
  Definition within (fs : list field) (vs : list (option aval)) : Prop :=
    exists i f v, nth_error fs i = Some f /\ nth_error vs i = Some (Some v) /\ blocked R (ftype f) v.

  Lemma absent_left : forall X f, absent (fcomp X f) = left_out f.
  Proof. reflexivity. Qed.
  Lemma absents_left : forall X fs, map absent (map (fcomp X) fs) = map left_out fs.
  Proof. intros X fs. rewrite map_map. reflexivity. Qed.
  Lemma slots_left : forall fs, slots fs (map left_out fs) (map left_out fs).
  Proof. induction fs; constructor; [left; split; reflexivity|assumption]. Qed.
  Lemma required_field : forall X f, required (fcomp X f) = match fpres f with Req => true | _ => false end.
  Proof. reflexivity. Qed.
  Lemma existsb_required : forall X fs, existsb required (map (fcomp X) fs) = existsb (fun f => match fpres f with Req => true | _ => false end) fs.
  Proof. intros X fs. induction fs as [|f fs IH]; [reflexivity|]. cbn [map existsb]. rewrite IH. reflexivity. Qed.
  Fixpoint frun (fs : list field) : list field :=
    match fs with [] => [] | f :: fs' => match fpres f with Req => [f] | _ => f :: frun fs' end end.
  Lemma run_fields : forall X fs, run (map (fcomp X) fs) = map (fcomp X) (frun fs).
  Proof.
    intros X fs. induction fs as [|f fs IH]; [reflexivity|]. cbn [map run frun]. rewrite required_field. rewrite IH. destruct (fpres f); reflexivity.
  Qed.
  Lemma frun_nth : forall fs i f, nth_error (frun fs) i = Some f -> nth_error fs i = Some f.
  Proof.
    induction fs as [|g fs IH]; intros i f H; [exact H|]. cbn [frun] in H. destruct (fpres g); [|destruct i; [exact H|exact (IH _ _ H)]..].
    destruct i as [|[|i]]; [exact H|discriminate H|discriminate H].
  Qed.
  Lemma twins_sub : forall fs gs, twins fs -> (forall f, In f gs -> In f fs) -> twins gs.
  Proof. intros fs gs T H f I. exact (T f (H f I)). Qed.
  Lemma skipn_in : forall {A} n (l : list A) x, In x (skipn n l) -> In x l.
  Proof. intros A n. induction n as [|n IH]; intros [|y l] x H; try exact H. right. exact (IH _ _ H). Qed.
  Lemma slots_app : forall fs1 vs1 ws1 fs2 vs2 ws2, slots fs1 vs1 ws1 -> slots fs2 vs2 ws2 -> slots (fs1 ++ fs2) (vs1 ++ vs2) (ws1 ++ ws2).
  Proof. intros fs1 vs1 ws1 fs2 vs2 ws2 H G. induction H; [exact G|]. cbn [app]. constructor; assumption. Qed.
  Lemma nth_split3 : forall {A} (l : list A) i x, nth_error l i = Some x -> l = firstn i l ++ x :: skipn (S i) l.
  Proof. intros A l. induction l as [|y l IH]; intros [|i] x H; try discriminate H; cbn in *; [congruence|]. rewrite (IH _ _ H) at 1. reflexivity. Qed.
  Lemma within_skip : forall pre fs vs0 f vs, List.length vs0 = List.length pre -> within fs vs -> forall o, within (pre ++ f :: fs) (vs0 ++ o :: vs).
  Proof.
    intros pre fs vs0 f vs L (i & g & v & A & B & C) o. exists (List.length pre + S i)%nat, g, v.
    rewrite !nth_error_app2 by lia. rewrite L. replace (List.length pre + S i - List.length pre)%nat with (S i) by lia. auto.
  Qed.
  Lemma within_here : forall pre fs vs0 f vs v, List.length vs0 = List.length pre -> blocked R (ftype f) v -> within (pre ++ f :: fs) (vs0 ++ Some v :: vs).
  Proof.
    intros pre fs vs0 f vs v L C. exists (List.length pre), f, v.
    rewrite !nth_error_app2 by lia. rewrite L, !Nat.sub_diag. auto.
  Qed.

  Lemma dec_seq_step : forall f c cs b s, dec_seq (S f) (c :: cs) (b :: s) =
    if required c then let! (v, s') := dec_one c (b :: s) in let! r := dec_seq f cs s' in Ok (Some v :: r)
    else let! (i, v, s') := dec_run (Der.run (c :: cs)) (b :: s) in
         let! r := dec_seq f (skipn (S i) (c :: cs)) s' in Ok (map absent (firstn i (c :: cs)) ++ Some v :: r).
  Proof. reflexivity. Qed.
  Lemma seq_twin : forall n fs s, twins fs ->
    rr (List.length s < lim)%nat (slots fs) (within fs) (dec_seq n (map (fcomp None) fs) s) (dec_seq n (map (fcomp (Some O)) fs) s).
  Proof.
    assert (Z : forall n fs, rr (List.length (@nil N) < lim)%nat (slots fs) (within fs) (dec_seq n (map (fcomp None) fs) []) (dec_seq n (map (fcomp (Some O)) fs) [])).
    { intros n fs. destruct n; cbn [dec_seq]; rewrite !existsb_required; (destruct (existsb _ fs); [apply rr_not; discriminate|]);
      rewrite !absents_left; apply rr_ok; apply slots_left. }
    induction n as [|n IH]; intros fs s T.
    - destruct s as [|b s]; [apply Z|]. destruct fs; apply rr_not; discriminate.
    - destruct s as [|b s]; [apply Z|]. destruct fs as [|f fs]; [apply rr_not; discriminate|]. cbn [map]. rewrite !dec_seq_step.
      rewrite !required_field. destruct (match fpres f with Req => true | _ => false end) eqn:RQ.
      + eapply rr_bind.
        * exact (one_twin (fcomp None f) (fcomp (Some O) f) (ftype f) (b :: s) eq_refl eq_refl eq_refl (T f (or_introl eq_refl))).
        * lia.
        * intros [v0 s0] [v1 s1] E [H1 H2]. cbn [fst snd] in H1, H2. subst s1. pose proof (dec_one_shorter _ _ _ _ E) as SH.
          eapply rr_bind; [exact (IH fs s0 (fun g I => T g (or_intror I)))|lia| |].
          -- intros a0 a1 _ H. apply rr_ok. constructor; [right; eauto|exact H].
          -- intros a0 c0 H E'. inversion E'; subst. exact (within_skip [] fs [] f a0 eq_refl H (Some v0)).
        * intros [v0 s0] c0 H E. cbn [fst] in H. apply rbind_ok in E. destruct E as (r & _ & E). inversion E; subst.
          exact (within_here [] fs [] f r v0 eq_refl H).
      + change (fcomp None f :: map (fcomp None) fs) with (map (fcomp None) (f :: fs)).
        change (fcomp (Some O) f :: map (fcomp (Some O)) fs) with (map (fcomp (Some O)) (f :: fs)).
        set (l := f :: fs) in *. clearbody l. clear RQ f fs. rewrite !run_fields.
        assert (T' : twins (frun l)).
        { apply (twins_sub l); [exact T|]. intros g I. apply In_nth_error in I. destruct I as (i & I). exact (nth_error_In _ _ (frun_nth _ _ _ I)). }
        eapply rr_bind; [exact (run_twin (frun l) (b :: s) T')|intro H; exact H| |].
        * intros [[i v0] s0] [[j v1] s1] E (H1 & H2 & g & H3 & H4). cbn [fst snd] in *. subst j s1. pose proof (dec_run_shorter _ _ _ _ _ E) as SH.
          apply frun_nth in H3. rewrite !skipn_map, !firstn_map, !absents_left.
          eapply rr_bind; [exact (IH (skipn (S i) l) s0 (twins_sub _ _ T (skipn_in _ _)))|lia| |].
          -- intros a0 a1 _ H. apply rr_ok. rewrite (nth_split3 _ _ _ H3) at 1. apply slots_app; [apply slots_left|]. constructor; [right; eauto|exact H].
          -- intros a0 c0 H E'. inversion E'; subst. rewrite (nth_split3 _ _ _ H3) at 1. apply within_skip; [apply map_length|exact H].
        * intros [[i v0] s0] c0 (g & H1 & H2) E. cbn [fst snd] in *. apply rbind_ok in E. destruct E as (r & _ & E). inversion E; subst.
          apply frun_nth in H1. rewrite (nth_split3 _ _ _ H1) at 1. rewrite firstn_map, absents_left. apply within_here; [apply map_length|exact H2].
  Qed.

  (** ** Open components *)

  Lemma opens_gov : forall t v w, opens_to R t v w -> gov_key (Some w) = gov_key (Some v).
  Proof. intros t v w H. destruct H; reflexivity. Qed.
  Lemma slots_gov : forall fs vs ws, slots fs vs ws -> forall n, gov_key (slot_of fs ws n) = gov_key (slot_of fs vs n).
  Proof.
    intros fs vs ws H n. induction H as [|f fs o vs o' ws S0 H IH]; [reflexivity|]. cbn [slot_of]. destruct (String.eqb (fname f) n); [|exact IH].
    destruct S0 as [[-> _]|(v & w & -> & -> & Q)]; [reflexivity|exact (opens_gov _ _ _ Q)].
  Qed.
  Lemma opens_octets : forall t v b, opens_to R t v (VOcts b) -> v = VOcts b.
  Proof. intros t v b H. inversion H; subst. reflexivity. Qed.
  (** Opening what is inside a component changes neither octets nor lists of octets. *)
  Lemma opens_list : forall t v bs, opens_to R t v (VList (map VOcts bs)) -> v = VList (map VOcts bs).
  Proof.
    intros t v bs H. inversion H as [| s m t' l l' F| |]; subst; [reflexivity|]. f_equal. clear H. revert l F.
    induction bs as [|b bs IH]; intros l F; inversion F as [|x y l1 l2 F1 F2]; subst; [reflexivity|].
    cbn [map]. rewrite (opens_octets _ _ _ F1), (IH _ F2). reflexivity.
  Qed.
  Lemma opens_shape : forall t v w, opens_to R t v w -> octets_of v -> w = v.
  Proof.
    intros t v w H OC. destruct H as [t v CL|s m t l l' F|m alts i f v w NT F|m fs vs ws CO]; [reflexivity| |contradiction OC|contradiction OC].
    f_equal. cbn [octets_of] in OC. induction F as [|x y l l' F1 F IH]; [reflexivity|]. destruct (OC x (or_introl eq_refl)) as (b & ->).
    f_equal; [|apply IH; intros z I; exact (OC z (or_intror I))]. inversion F1; subst; reflexivity.
  Qed.
  Lemma opens_shape_back : forall t v w, opens_to R t v w -> octets_of w -> v = w.
  Proof.
    intros t v w H OC. destruct H as [t v CL|s m t l l' F|m alts i f v w NT F|m fs vs ws CO]; [reflexivity| |contradiction OC|contradiction OC].
    f_equal. cbn [octets_of] in OC. induction F as [|x y l l' F1 F IH]; [reflexivity|]. destruct (OC y (or_introl eq_refl)) as (b & ->).
    f_equal; [|apply IH; intros z I; exact (OC z (or_intror I))]. exact (opens_octets _ _ _ F1).
  Qed.

  Definition plain_field (f : field) : bool := negb (is_some (fopen f)) || match fpres f with Def => false | _ => true end.
  (** What makes the component [f] with value [o] impossible to open. *)
  Inductive stops (fs : list field) (vs : list (option aval)) (f : field) : option aval -> Prop :=
  | sp_governor : forall v n d, fopen f = Some (n, d) -> gov_key (slot_of fs vs n) = None -> stops fs vs f (Some v)
  | sp_one : forall n d k u b, fopen f = Some (n, d) -> gov_key (slot_of fs vs n) = Some k -> R d k = Some u -> misfit R u b -> stops fs vs f (Some (VOcts b))
  | sp_many : forall n d k u b l, fopen f = Some (n, d) -> gov_key (slot_of fs vs n) = Some k -> R d k = Some u -> In (VOcts b) l -> misfit R u b ->
      stops fs vs f (Some (VList l))
  | sp_shape : forall v n d k u, fopen f = Some (n, d) -> gov_key (slot_of fs vs n) = Some k -> R d k = Some u -> ~ octets_of v -> stops fs vs f (Some v).
  Lemma reopened_list : forall u g, (forall b, (forall w, g b = Ok w -> object R u b w) /\ ((List.length b < lim)%nat -> (exists w, g b = Ok w) \/ misfit R u b)) ->
    forall l, (forall ws, rmap (reopen g) l = Ok ws -> exists bs, l = map VOcts bs /\ Forall2 (object R u) bs ws) /\
      (Forall (octs_small (lim - 1)) l -> (0 < lim)%nat -> (exists ws, rmap (reopen g) l = Ok ws) \/ (exists b, In (VOcts b) l /\ misfit R u b) \/ ~ octets_of (VList l)).
  Proof.
    intros u g G l. induction l as [|x l [IH1 IH2]].
    - split; [|intros; left; exists []; reflexivity]. intros ws H. inversion H; subst. exists []. split; [reflexivity|constructor].
    - split.
      + intros ws H. cbn [rmap] in H. apply rbind_ok in H. destruct H as (y & H1 & H). apply rbind_ok in H. destruct H as (r & H2 & H).
        inversion H; subst. destruct (IH1 _ H2) as (bs & -> & F). destruct x; try discriminate H1. cbn [reopen] in H1.
        exists (bs0 :: bs) || (match goal with H1 : g ?b = Ok _ |- _ => exists (b :: bs) end). split; [reflexivity|]. constructor; [|exact F]. apply G. exact H1.
      + intros SM NZ. inversion SM as [|? ? S1 S2]; subst. destruct (IH2 S2 NZ) as [(ws & E)|[(b & I & M)|NO]].
        2: { right. left. exists b. split; [right; exact I|exact M]. }
        2: { right. right. intro OC. apply NO. intros z I. exact (OC z (or_intror I)). }
        destruct x as [| | |b| | | | | | |]; try (right; right; intro OC; destruct (OC _ (or_introl eq_refl)) as (q & Q); discriminate Q).
        cbn [octs_small] in S1. destruct (proj2 (G b) ltac:(lia)) as [(w & E1)|M].
        * left. exists (w :: ws). cbn [rmap reopen]. rewrite E1. cbn [rbind]. rewrite E. reflexivity.
        * right. left. exists b. split; [left; reflexivity|exact M].
  Qed.
  Lemma slot_twin : forall fs vs ws f o o', slots fs vs ws -> slot f o o' -> plain_field f = true ->
    (forall p, open_slot O fs ws f o' = Ok p -> component R fs vs f o p) /\
    (match o with Some v => fopen f <> None -> small (lim - 1) v | None => True end -> (0 < lim)%nat -> (exists p, open_slot O fs ws f o' = Ok p) \/ stops fs vs f o).
  Proof.
    intros fs vs ws f o o' SL S0 PF. unfold open_slot. destruct (fopen f) as [[n d]|] eqn:FO.
    2: { split; [|intros; left; eexists; reflexivity]. intros p H. assert (p = o') by congruence. subst p.
         destruct S0 as [[-> ->]|(v & w & -> & -> & Q)]; [constructor|apply cm_closed; assumption]. }
    assert (S1 : (o = None /\ o' = None /\ left_out f = None) \/ exists v w, o = Some v /\ o' = Some w /\ opens_to R (ftype f) v w).
    { destruct S0 as [[-> ->]|Q]; [|right; exact Q]. left. unfold plain_field in PF. rewrite FO in PF. cbn [is_some negb orb] in PF.
      unfold left_out. destruct (fpres f); [auto|auto|discriminate PF]. }
    destruct S1 as [(-> & -> & LO)|(v & w & -> & -> & Q)].
    { split; [|intros; left; eexists; reflexivity]. intros p H. assert (p = None) by congruence. subst p.
      pose proof (cm_absent R fs vs f) as CM. rewrite LO in CM. exact CM. }
    rewrite (slots_gov _ _ _ SL n). destruct (gov_key (slot_of fs vs n)) as [k|] eqn:GK.
    2: { split; [destruct (existsb _ _); intros p H; discriminate H|]. intros. right. exact (sp_governor _ _ _ _ _ _ FO GK). }
    destruct (R d k) as [u|] eqn:RK.
    2: { rewrite (none _ _ RK). split; [|intros; left; eexists; reflexivity]. intros p H. assert (p = Some w) by congruence. subst p.
         exact (cm_unknown _ _ _ _ _ _ _ _ _ FO GK RK Q). }
    destruct (some _ _ _ RK) as (g & -> & G). split.
    - intros p H. destruct w as [| | |b| | | | |l| |]; try (cbn in H; discriminate H).
      + apply rbind_ok in H. destruct H as (y & H & E). assert (p = Some y) by congruence. subst p. cbn [reopen] in H.
        rewrite (opens_octets _ _ _ Q). exact (cm_one _ _ _ _ _ _ _ _ _ _ FO GK RK (proj1 (G b) _ H)).
      + apply rbind_ok in H. destruct H as (ys & H & E). assert (p = Some (VList ys)) by congruence. subst p.
        destruct (proj1 (reopened_list u g G l) _ H) as (bs & -> & F). rewrite (opens_list _ _ _ Q).
        exact (cm_many _ _ _ _ _ _ _ _ _ _ FO GK RK F).
    - intros SM NZ. specialize (SM ltac:(discriminate)).
      destruct v as [| | |b| | | | |l| |];
        try (right; refine (sp_shape _ _ _ _ _ _ _ _ FO GK RK _); intro OC; exact OC).
      + rewrite (opens_shape _ _ _ Q I). cbn [reopen rbind]. destruct SM as [SM _]. cbn [octs_small] in SM. destruct (proj2 (G b) ltac:(lia)) as [(y & E)|M].
        * left. rewrite E. eexists. reflexivity.
        * right. exact (sp_one _ _ _ _ _ _ _ _ FO GK RK M).
      + destruct SM as [_ SM]. destruct (proj2 (reopened_list u g G l) SM NZ) as [(ys & E)|[(b & I & M)|NO]].
        * left. assert (OC : octets_of (VList l)).
          { destruct (proj1 (reopened_list u g G l) _ E) as (bs & -> & _). intros x I. apply in_map_iff in I. destruct I as (b & <- & _). eauto. }
          rewrite (opens_shape _ _ _ Q OC). rewrite E. eexists. reflexivity.
        * right. exact (sp_many _ _ _ _ _ _ _ _ _ FO GK RK I M).
        * right. exact (sp_shape _ _ _ _ _ _ _ _ FO GK RK NO).
  Qed.
  Lemma slots_twin : forall fs0 vs0 ws0 fs vs ws, slots fs0 vs0 ws0 -> slots fs vs ws -> forallb plain_field fs = true ->
    (forall ps, open_slots O fs0 ws0 fs ws = Ok ps -> components R fs0 vs0 fs vs ps) /\
    (Forall2 (slot_small (lim - 1)) (map (fcomp None) fs) vs -> (0 < lim)%nat -> (exists ps, open_slots O fs0 ws0 fs ws = Ok ps) \/
      exists i f o, nth_error fs i = Some f /\ nth_error vs i = Some o /\ stops fs0 vs0 f o).
  Proof.
    intros fs0 vs0 ws0 fs vs ws SL S1. induction S1 as [|f fs o vs o' ws S0 S1 IH]; intro PF.
    - split; [|intros; left; eexists; reflexivity]. intros ps H. inversion H; subst. constructor.
    - cbn [forallb] in PF. apply andb_true_iff in PF. destruct PF as [P1 P2]. destruct (IH P2) as [IH1 IH2].
      destruct (slot_twin _ _ _ _ _ _ SL S0 P1) as [A1 A2]. split.
      + intros ps H. cbn [open_slots] in H. apply rbind_ok in H. destruct H as (p & B1 & H). apply rbind_ok in H. destruct H as (r & B2 & H).
        inversion H; subst. constructor; auto.
      + intros SM NZ. cbn [map] in SM. inversion SM as [|? ? ? ? M1 M2]; subst.
        assert (M : match o with Some v => fopen f <> None -> small (lim - 1) v | None => True end).
        { destruct o as [v|]; [|exact I]. intro FO. cbn [slot_small] in M1. destruct M1 as [M1|[M1 _]]; [exact M1|]. exfalso. cbn [fcomp c_pres] in M1.
          unfold plain_field in P1. rewrite M1 in P1. destruct (fopen f); [discriminate P1|congruence]. }
        destruct (A2 M NZ) as [(p & E)|ST]; [|right; exists 0%nat, f, o; auto].
        destruct (IH2 M2 NZ) as [(r & E2)|(i & h & q & J1 & J2 & J3)]; [|right; exists (S i), h, q; auto].
        left. exists (p :: r). cbn [open_slots]. rewrite E. cbn [rbind]. rewrite E2. reflexivity.
  Qed.

  (** ** The constraint on a SEQUENCE sees which components are present *)

  Lemma slots_present : forall fs vs ws, slots fs vs ws -> Forall2 (fun o p : option aval => is_some o = is_some p) vs ws.
  Proof. intros fs vs ws H. induction H as [|f fs o vs o' ws S0 H IH]; constructor; [|exact IH]. destruct S0 as [[-> _]|(v & w & -> & -> & _)]; reflexivity. Qed.
  Lemma csat_present : forall names vs ws, Forall2 (fun o p : option aval => is_some o = is_some p) vs ws ->
    forall c, csat names c (VSeq vs) = csat names c (VSeq ws).
  Proof.
    intros names vs ws H. 
    assert (L : vlen (VSeq vs) = vlen (VSeq ws)).
    { cbn [vlen]. do 2 f_equal. induction H as [|o p vs ws E H IH]; [reflexivity|]. cbn [filter]. destruct o, p; try discriminate E; cbn [List.length]; congruence. }
    fix REC 1. intros [l|l|lo hi|lo hi|l|a|l].
    - cbn [csat]. induction l as [|c l IH]; [reflexivity|]. rewrite (REC c), IH. reflexivity.
    - cbn [csat]. destruct l as [|c l]; [reflexivity|]. rewrite (REC c). f_equal. induction l as [|d l IH]; [reflexivity|]. rewrite (REC d), IH. reflexivity.
    - cbn [csat]. rewrite L. reflexivity.
    - reflexivity.
    - reflexivity.
    - reflexivity.
    - cbn [csat]. induction l as [|q l IH]; [reflexivity|]. cbn [forallb]. rewrite IH. f_equal. f_equal. clear IH l L REC. revert names.
      induction H as [|o p vs ws E H IH]; intros [|n names]; try reflexivity. destruct (String.eqb n (fst q)); [destruct o, p; try discriminate E; reflexivity|apply IH].
  Qed.
  Lemma components_present : forall fs vs fs0 vs0 ws, components R fs0 vs0 fs vs ws -> List.length ws = List.length vs.
  Proof. intros fs vs fs0 vs0 ws H. induction H; cbn [List.length]; congruence. Qed.

  (** ** All types *)

  Lemma closed_components : forall fs0 vs0 fs vs ws, existsb (fun f => is_some (fopen f)) fs = false -> slots fs vs ws -> components R fs0 vs0 fs vs ws.
  Proof.
    intros fs0 vs0 fs vs ws NO H. induction H as [|f fs o vs o' ws S0 H IH]; [constructor|]. cbn [existsb] in NO. apply orb_false_iff in NO. destruct NO as [N1 N2].
    constructor; [|exact (IH N2)]. destruct S0 as [[-> ->]|(v & w & -> & -> & Q)]; [constructor|apply cm_closed; [|exact Q]].
    destruct (fopen f); [discriminate N1|reflexivity].
  Qed.
  Lemma stops_blocked : forall s m fs vs i f o, nth_error fs i = Some f -> nth_error vs i = Some o -> stops fs vs f o -> blocked R (TSeq s m fs) (VSeq vs).
  Proof.
    intros s m fs vs i f o A B S0. destruct S0.
    - eapply bl_governor; eassumption.
    - eapply bl_one; eassumption.
    - eapply bl_many; eassumption.
    - eapply bl_shape; eassumption.
  Qed.
  Lemma list_twin : forall t, twin t -> forall n s, rr (List.length s < lim)%nat (Forall2 (opens_to R t)) (Exists (blocked R t))
    (dec_list n (part None t) s) (dec_list n (part (Some O) t) s).
  Proof.
    intros t T n. induction n as [|n IH]; intros [|b s]; try (apply rr_ok; constructor); try (apply rr_not; discriminate).
    cbn [dec_list]. eapply rr_bind; [exact (one_twin (part None t) (part (Some O) t) t (b :: s) eq_refl eq_refl eq_refl T)|lia| |].
    - intros [v0 s0] [v1 s1] E [H1 H2]. cbn [fst snd] in *. subst s1. pose proof (dec_one_shorter _ _ _ _ E) as SH.
      eapply rr_bind; [exact (IH s0)|lia| |].
      + intros a0 a1 _ H. apply rr_ok. constructor; assumption.
      + intros a0 c0 H E'. inversion E'; subst. apply Exists_cons_tl. exact H.
    - intros [v0 s0] c0 H E. cbn [fst] in H. apply rbind_ok in E. destruct E as (r & _ & E). inversion E; subst. apply Exists_cons_hd. exact H.
  Qed.
  Lemma same_twin : forall t, everywhere closed t = true -> twin t.
  Proof.
    intros t CL ts tlv c. rewrite (dec_closed O t CL). split; [|intros _ v0 H; left; eauto].
    intros v H. exists v. split; [exact H|]. apply op_closed, CL.
  Qed.
  Theorem all_twin : forall t, everywhere open_plain t = true -> twin t.
  Proof.
    intro t. induction t as [k m|s m fs IH|s m t IH|s m|m fs IH] using asn1_ind2; intro OP.
    - apply same_twin. reflexivity.
    - cbn [everywhere] in OP. rewrite everywhere_go in OP. apply andb_true_iff in OP. destruct OP as [OP EV]. cbn [open_plain] in OP.
      apply andb_true_iff in OP. destruct OP as [PF CL]. destruct s; [exact (same_twin _ CL)|]. clear CL.
      assert (T : twins fs).
      { intros f I. rewrite Forall_forall in IH. apply (IH f I). unfold everywhere_all in EV. exact (proj1 (forallb_forall _ _) EV f I). }
      clear IH EV. intros ts tlv c. rewrite !dec_seq_val. destruct (constructed ts); [|apply rr_not; discriminate].
      assert (G : rr (List.length c < lim)%nat (opens_to R (TSeq false m fs)) (blocked R (TSeq false m fs))
        (let! vs := dec_seq (List.length (map (fcomp None) fs)) (map (fcomp None) fs) c in
         if existsb (fun f => is_some (fopen f)) fs then Ok (VSeq vs) else if ctruthy (spec m) && negb (csat (fnames fs) (spec m) (VSeq vs)) then Err else Ok (VSeq vs))
        (let! vs := dec_seq (List.length (map (fcomp (Some O)) fs)) (map (fcomp (Some O)) fs) c in
         if existsb (fun f => is_some (fopen f)) fs then let! vs' := open_slots O fs vs fs vs in Ok (VSeq vs')
         else if ctruthy (spec m) && negb (csat (fnames fs) (spec m) (VSeq vs)) then Err else Ok (VSeq vs))).
      { rewrite !map_length. eapply rr_bind; [exact (seq_twin (List.length fs) fs c T)|intro H; exact H| |].
        - intros vs ws E SL. destruct (existsb (fun f => is_some (fopen f)) fs) eqn:EX.
          + destruct (slots_twin fs vs ws fs vs ws SL SL PF) as [A1 A2]. split.
            * intros v H. apply rbind_ok in H. destruct H as (ps & H & E'). inversion E'; subst. exists (VSeq vs). split; [reflexivity|].
              apply op_seq. exact (A1 _ H).
            * intros LC v0 H. inversion H; subst.
              assert (SM : Forall2 (slot_small (lim - 1)) (map (fcomp None) fs) vs).
              { refine (dec_seq_small _ _ _ _ _ _ _ E); [|lia]. apply Forall_forall. intros q I. apply in_map_iff in I. destruct I as (f & <- & _).
                intros ts' tlv' c' v' H1 H2 H3. exact (dec_val_small _ _ _ _ _ _ _ H1 H2 H3). }
              destruct (A2 SM ltac:(lia)) as [(ps & P)|(i & f & o & J1 & J2 & J3)]; [left; rewrite P; eexists; reflexivity|right].
              exact (stops_blocked _ _ _ _ _ _ _ J1 J2 J3).
          + rewrite (csat_present _ _ _ (slots_present _ _ _ SL)). destruct (ctruthy (spec m) && negb _); [apply rr_not; discriminate|].
            apply rr_ok. apply op_seq. exact (closed_components _ _ _ _ _ EX SL).
        - intros vs v (i & f & w & J1 & J2 & J3) E. assert (v = VSeq vs) by (destruct (existsb _ fs); [congruence|]; destruct (_ && _); [discriminate E|congruence]).
          subst v. eapply bl_comp; eassumption. }
      destruct fs as [|f fs]; [destruct c; [exact G|apply rr_not; discriminate]|exact G].
    - cbn [everywhere] in OP. apply andb_true_iff in OP. destruct OP as [_ OP]. specialize (IH OP). intros ts tlv c. cbn [dec_val].
      destruct (constructed ts); [|apply rr_not; discriminate]. eapply rr_bind; [exact (list_twin t IH (List.length c) c)|intro H; exact H| |].
      + intros a0 a1 _ H. apply rr_ok. constructor. exact H.
      + intros a0 c0 H E. inversion E; subst. apply Exists_exists in H. destruct H as (x & I & H). eapply bl_of; eassumption.
    - apply same_twin. reflexivity.
    - cbn [everywhere] in OP. rewrite everywhere_go in OP. apply andb_true_iff in OP. destruct OP as [_ EV].
      assert (T : twins fs).
      { intros f I. rewrite Forall_forall in IH. apply (IH f I). unfold everywhere_all in EV. exact (proj1 (forallb_forall _ _) EV f I). }
      clear IH EV. intros ts tlv c. rewrite !dec_choice_val. cbv zeta. destruct (tags_eqb ts (tags m)).
      + eapply rr_bind; [exact (run_twin fs c T)|intro H; exact H| |].
        * intros [[i v0] s0] [[j v1] s1] _ (H1 & H2 & g & H3 & H4). cbn [fst snd] in *. subst j s1. apply rr_ok. eapply op_alt; eassumption.
        * intros [[i v0] s0] c0 (g & H1 & H2) E. cbn [fst snd] in *. inversion E; subst. eapply bl_alt; eassumption.
      + rewrite !choose_field. destruct (fchoose fs ts) as [[i f]| | |] eqn:C; try (apply rr_not; discriminate). cbn [rbind fcomp c_val].
        apply fchoose_nth in C. eapply rr_bind; [exact (T f (nth_error_In _ _ C) ts c c)|intro H; exact H| |].
        * intros a0 a1 _ H. apply rr_ok. eapply op_alt; eassumption.
        * intros a0 c0 H E. inversion E; subst. eapply bl_alt; eassumption.
  Qed.
End opening.

(** ** The registries *)

Section registries.
  Variable R : registry.
  Hypothesis RP : forall d k t, R d k = Some t -> everywhere open_plain t = true.

  Lemma opener_twin : forall n t, everywhere open_plain t = true -> twin R (opener_of R n) n t.
  Proof.
    induction n as [|n IH]; intros t OP; apply all_twin; try exact OP.
    - intros d k H. cbn [opener_of]. rewrite H. reflexivity.
    - intros d k u H. cbn [opener_of]. rewrite H. eexists. split; [reflexivity|]. intro b. split; [intros w E; discriminate E|lia].
    - intros d k H. cbn [opener_of]. rewrite H. reflexivity.
    - intros d k u H. cbn [opener_of]. rewrite H. eexists. split; [reflexivity|]. intro b. cbv beta.
      pose proof (one_twin R (opener_of R n) n (comp_of None u) (comp_of (Some (opener_of R n)) u) u b eq_refl eq_refl eq_refl (IH u (RP _ _ _ H))) as [A1 A2].
      change (dec_one (comp_of None u) b) with (decode u b) in *. change (dec_one (comp_of (Some (opener_of R n)) u) b) with (decode_with (Some (opener_of R n)) u b) in *.
      split.
      + intros w E. apply rbind_ok in E. destruct E as ([v r] & E & E'). inversion E'; subst. destruct (A1 _ E) as ([v0 r0] & D & Q & _). cbn [fst] in Q.
        exact (ob_made R u b v0 r0 v D Q).
      + intro L. destruct (decode u b) as [[v0 r0]| | |] eqn:D; try (right; apply mf_rejected; intros p; rewrite D; discriminate).
        destruct (A2 ltac:(lia) _ eq_refl) as [([v r] & E)|B]; [left; rewrite E; eexists; reflexivity|right]. exact (mf_blocked R u b v0 r0 D B).
  Qed.

  Theorem open_is_plain : forall t s v r, everywhere open_plain t = true -> decode_open R t s = Ok (v, r) ->
    exists v0, decode t s = Ok (v0, r) /\ opens_to R t v0 v.
  Proof.
    intros t s v r OP H.
    destruct (one_twin R (opener_of R (S (List.length s))) (S (List.length s)) (comp_of None t) (comp_of (Some (opener_of R (S (List.length s)))) t) t s
      eq_refl eq_refl eq_refl (opener_twin _ t OP)) as [A _]. destruct (A _ H) as ([v0 r0] & D & Q & E). cbn [fst snd] in *. subst r0. exists v0. auto.
  Qed.
  Theorem plain_opens : forall t s v0 r, everywhere open_plain t = true -> decode t s = Ok (v0, r) ->
    (exists v, decode_open R t s = Ok (v, r)) \/ blocked R t v0.
  Proof.
    intros t s v0 r OP H.
    destruct (one_twin R (opener_of R (S (List.length s))) (S (List.length s)) (comp_of None t) (comp_of (Some (opener_of R (S (List.length s)))) t) t s
      eq_refl eq_refl eq_refl (opener_twin _ t OP)) as [A1 A2]. destruct (A2 ltac:(lia) _ H) as [([v r'] & D)|B]; [left|right; exact B].
    destruct (A1 _ D) as ([v0' r0] & D' & _ & E). cbn [fst snd] in *. subst r0. exists v. change (decode t s = Ok (v0', r')) in D'.
    unfold decode_open, decode_with. rewrite D. congruence.
  Qed.
End registries.

End codec.
