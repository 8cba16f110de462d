(** Encoding what decoding with decodeOpenTypes returns. *)
From Coq Require Import List String ZArith NArith Bool Lia.
From Verif Require Import Asn1.Types Py.Eval Asn1.EqbFacts Asn1.Bytes Asn1.Der Asn1.Wf Asn1.RoundTrip Asn1.Open Asn1.Inside Asn1.OpenDepth Asn1.Opening.
Import ListNotations.
Open Scope string_scope.
Open Scope list_scope.

Section codec.
Context {Cdc : codec}.

(** The type [t] of an open component encodes a value of type [u] as the octets of its
    encoding: it is ANY or OCTET STRING, and, if tagged, not the same type as [u]. *)
Definition carries (t u : asn1) : Prop :=
  exists q m, t = TPrim q m /\ (q = KAny \/ q = KOcts) /\ (tags m = [] \/ tags_eqb (tags m) (tags (meta_of u)) && cons_eqb (spec m) (spec (meta_of u)) = false).

(** The registries and open components that fail this (see C37). *)
Definition subject_key : did * key := (("rfc2459", "certificateExtensionsMap"), KeyOid [2; 5; 29; 14]%N).
Definition element (t : asn1) : asn1 := match t with TOf _ _ (Some t') => t' | _ => t end.
(** All others carry what is registered for them. *)
Definition carrying (R : registry) (t : asn1) : Prop := forall s m fs f n d k u, inside (TSeq s m fs) t -> In f fs -> fopen f = Some (n, d) ->
  R d k = Some u -> (d, k) <> subject_key -> fpres f <> Def /\ carries (element (ftype f)) u.

Definition carries_b (t u : asn1) : bool :=
  match t with
  | TPrim (KAny | KOcts) m => match tags m with [] => true | _ => negb (tags_eqb (tags m) (tags (meta_of u)) && cons_eqb (spec m) (spec (meta_of u))) end
  | _ => false
  end.
Lemma carries_sound : forall t u, carries_b t u = true -> carries t u.
Proof.
  intros t u H. destruct t as [q m| | |]; try discriminate H. exists q, m. split; [reflexivity|]. cbn [carries_b] in H.
  destruct q; try discriminate H; (split; [auto|]); (destruct (tags m) as [|g ts] eqn:G; [left; reflexivity|right]); rewrite <- G in *;
    destruct (tags_eqb (tags m) (tags (meta_of u)) && cons_eqb (spec m) (spec (meta_of u))); [discriminate H|reflexivity|discriminate H|reflexivity].
Qed.

(** [keeps R t v w]: [w] is [v] with open components opened, as in [opens_to], where
    (1) the octets of each are the encoding of the value they are replaced by, in an OPTIONAL
    component (from which the encoder drops constructed encodings without contents: [enc] with
    [true]) as well as elsewhere; (2) no component becomes equal to its default or ceases to
    be; (3) the component is not that of C37_subject_key_identifier_refuted. *)
Inductive keeps (R : registry) : asn1 -> aval -> aval -> Prop :=
| kp_closed : forall t v, keeps R t v v
| kp_of : forall s m t l l', Forall2 (keeps R t) l l' -> keeps R (TOf s m (Some t)) (VList l) (VList l')
| kp_alt : forall m alts i f v w, nth_error alts i = Some f -> keeps R (ftype f) v w -> keeps R (TChoice m alts) (VAlt i v) (VAlt i w)
| kp_seq : forall m fs vs ws, keeps_all R fs vs fs vs ws -> keeps R (TSeq false m fs) (VSeq vs) (VSeq ws)
with keeps_all (R : registry) : list field -> list (option aval) -> list field -> list (option aval) -> list (option aval) -> Prop :=
| ka_nil : forall fs0 vs0, keeps_all R fs0 vs0 [] [] []
| ka_cons : forall fs0 vs0 f fs o vs o' ws, keeps_comp R fs0 vs0 f o o' -> keeps_all R fs0 vs0 fs vs ws ->
    keeps_all R fs0 vs0 (f :: fs) (o :: vs) (o' :: ws)
with keeps_comp (R : registry) : list field -> list (option aval) -> field -> option aval -> option aval -> Prop :=
| kc_absent : forall fs0 vs0 f, keeps_comp R fs0 vs0 f (left_out f) (left_out f)
| kc_value : forall fs0 vs0 f v w, keeps R (ftype f) v w -> (forall d, fpres f = Def -> fdef f = Some d -> (v = d <-> w = d)) ->
    keeps_comp R fs0 vs0 f (Some v) (Some w)
| kc_one : forall fs0 vs0 f n d k u b w q m, fopen f = Some (n, d) -> gov_key (slot_of fs0 vs0 n) = Some k -> R d k = Some u ->
    (d, k) <> subject_key -> ftype f = TPrim q m -> keeps_object R (is_opt (fpres f)) u b w -> keeps_comp R fs0 vs0 f (Some (VOcts b)) (Some w)
| kc_many : forall fs0 vs0 f n d k u bs ws s m t, fopen f = Some (n, d) -> gov_key (slot_of fs0 vs0 n) = Some k -> R d k = Some u ->
    (d, k) <> subject_key -> ftype f = TOf s m (Some t) -> Forall2 (keeps_object R (is_opt (fpres f)) u) bs ws ->
    keeps_comp R fs0 vs0 f (Some (VList (map VOcts bs))) (Some (VList ws))
with keeps_object (R : registry) : bool -> asn1 -> bytes -> aval -> Prop :=
| ko_made : forall ine u b v w, decode u b = Ok (v, []) -> enc v false ine u = Ok b -> keeps R u v w -> keeps_object R ine u b (VTyped u (Some w)).

Definition payload (x : res (list (list tag * bytes))) : res (list bytes) := let! c := x in Ok (map snd c).
Lemma enc_seq_payload : forall vs opn ine m fs, enc (VSeq vs) opn ine (TSeq false m fs) =
  if ctruthy (spec m) && negb (csat (fnames fs) (spec m) (VSeq vs)) then Err
  else let! ps := payload (enc_fields vs fs) in finish (tags m) true ine (List.concat ps).
Proof. intros. rewrite enc_seq_eq. destruct (_ && _); [reflexivity|]. destruct (enc_fields vs fs); reflexivity. Qed.

(** The encoder's part for one component. *)
Definition enc_slot (f : field) (o : option aval) : res (option bytes) :=
  match o with
  | None => match fpres f with Req => let! c := match enc_kept (ftype f) (fdef f) with Some c => c | None => enc_absent false (ftype f) end in Ok (Some c) | _ => Ok None end
  | Some x =>
      match fpres f, fdef f with
      | Def, None => Err
      | Def, Some dv => if aval_eqb x dv then Ok None else let! c := enc x (is_some (fopen f)) false (ftype f) in Ok (Some c)
      | p, _ => let! c := enc x (is_some (fopen f)) (is_opt p) (ftype f) in Ok (Some c)
      end
  end.
Definition put (o : option bytes) (ps : list bytes) : list bytes := match o with Some c => c :: ps | None => ps end.
Lemma payload_cons : forall o vs f fs, payload (enc_fields (o :: vs) (f :: fs)) =
  let! ps := payload (enc_fields vs fs) in let! c := enc_slot f o in Ok (put c ps).
Proof.
  intros o vs [n p t d op] fs. change (enc_fields (o :: vs) (Fld n p t d op :: fs)) with
    (let! r := enc_fields vs fs in
        match o with
        | None => match p with
            | Req => let! c := match enc_kept t d with Some c => c | None => enc_absent false t end in Ok ((sort_key t None, c) :: r)
            | _ => Ok r
            end
        | Some x =>
            match p, d with
            | Def, None => Err
            | Def, Some dv => if aval_eqb x dv then Ok r else let! c := enc x (is_some op) false t in Ok ((sort_key t o, c) :: r)
            | _, _ => let! c := enc x (is_some op) (is_opt p) t in Ok ((sort_key t o, c) :: r)
            end
        end).
  unfold payload, enc_slot. cbn [fpres ftype fdef fopen]. destruct (enc_fields vs fs) as [r| | |]; try reflexivity. cbn [rbind].
  destruct o as [x|].
  - destruct p.
    + destruct (enc x _ _ t); reflexivity.
    + destruct (enc x _ _ t); reflexivity.
    + destruct d as [dv|]; [|reflexivity]. destruct (aval_eqb x dv); [reflexivity|]. destruct (enc x _ _ t); reflexivity.
  - destruct p; try reflexivity. destruct (enc_kept t d) as [c|]; [destruct c; reflexivity|]. destruct (enc_absent false t); reflexivity.
Qed.

Lemma csat_list : forall names l l', List.length l = List.length l' -> forall c, csat names c (VList l) = csat names c (VList l').
Proof.
  intros names l l' L. fix REC 1. intros [cs|cs|lo hi|lo hi|cs|a|cs].
  - cbn [csat]. induction cs as [|c cs IH]; [reflexivity|]. rewrite (REC c), IH. reflexivity.
  - cbn [csat]. destruct cs as [|c cs]; [reflexivity|]. rewrite (REC c). f_equal. induction cs as [|d cs IH]; [reflexivity|]. rewrite (REC d), IH. reflexivity.
  - cbn [csat vlen]. rewrite L. reflexivity.
  - reflexivity.
  - reflexivity.
  - reflexivity.
  - reflexivity.
Qed.

Lemma carried : forall t u ine b w, carries t u -> enc w false ine u = Ok b -> enc (VTyped u (Some w)) true ine t = enc (VOcts b) true ine t.
Proof.
  intros t u ine b w (q & m & -> & Q & S) E. cbn [enc]. rewrite E. cbn [rbind andb].
  assert (P : enc_prim q (VOcts b) = Ok b) by (destruct Q as [-> | ->]; reflexivity). rewrite P. cbn [rbind meta_of].
  destruct (tags_eqb (tags m) (tags (meta_of u)) && cons_eqb (spec m) (spec (meta_of u))) eqn:SAME; cbn [negb].
  - destruct S as [S|S]; [rewrite S; reflexivity|discriminate S].
  - destruct Q as [-> | ->]; reflexivity.
Qed.

Lemma inside_trans : forall t u, inside t u -> forall x, inside x t -> inside x u.
Proof. intros t u H. induction H; intros x I; [exact I|eapply in_seq; eauto|eapply in_choice; eauto|eapply in_of; eauto]. Qed.

Section keep.
  Variable R : registry.
  Hypothesis RC : forall d k u, R d k = Some u -> carrying R u.
  Lemma carrying_in : forall t u, carrying R t -> inside u t -> carrying R u.
  Proof. intros t u C I s m fs f n d k x J. exact (C s m fs f n d k x (inside_trans _ _ I _ J)). Qed.
  Definition opens_well (f : field) : Prop := forall n d k u, fopen f = Some (n, d) -> R d k = Some u -> (d, k) <> subject_key ->
    fpres f <> Def /\ carries (element (ftype f)) u.

  Fixpoint keeps_enc t v w (H : keeps R t v w) {struct H} : carrying R t -> forall opn ine, enc w opn ine t = enc v opn ine t
  with all_enc fs0 vs0 fs vs ws (H : keeps_all R fs0 vs0 fs vs ws) {struct H} : (forall f, In f fs -> opens_well f /\ carrying R (ftype f)) ->
    payload (enc_fields ws fs) = payload (enc_fields vs fs) /\ Forall2 (fun o p : option aval => is_some o = is_some p) vs ws
  with comp_enc fs0 vs0 f o o' (H : keeps_comp R fs0 vs0 f o o') {struct H} : opens_well f -> carrying R (ftype f) ->
    enc_slot f o' = enc_slot f o /\ is_some o = is_some o'
  with object_enc ine u b w (H : keeps_object R ine u b w) {struct H} : carrying R u -> exists w', w = VTyped u (Some w') /\ enc w' false ine u = Ok b.
  Proof.
    - destruct H as [t v|s m t l l' F|m alts i f v w N Q|m fs vs ws Q]; intros C opn ine.
      + reflexivity.
      + rewrite !enc_of_eq. pose proof (carrying_in _ t C (in_of _ _ _ _ (in_here _))) as C'.
        assert (E : enc_list opn ine t l' = enc_list opn ine t l /\ List.length l = List.length l').
        { unfold enc_list. induction F as [|x y l l' A F [I1 I2]]; [split; reflexivity|]. cbn [rmap List.length]. rewrite (keeps_enc _ _ _ A C'), I1. split; [reflexivity|congruence]. }
        destruct E as [-> L]. rewrite (csat_list [] _ _ L). reflexivity.
      + cbn [enc]. unfold nth_alt. rewrite N. rewrite (keeps_enc _ _ _ Q); [reflexivity|].
        exact (carrying_in _ _ C (in_choice _ _ _ _ (nth_error_In _ _ N) (in_here _))).
      + destruct (all_enc _ _ _ _ _ Q) as [E P]; [|rewrite !enc_seq_payload, E, (csat_present _ _ _ P); reflexivity].
        intros f I. split; [|exact (carrying_in _ _ C (in_seq _ _ _ _ _ I (in_here _)))]. intros n d k u. exact (C _ _ _ f n d k u (in_here _) I).
    - destruct H as [fs0 vs0|fs0 vs0 f fs o vs o' ws A H]; intro W; [split; [reflexivity|constructor]|].
      destruct (W f (or_introl eq_refl)) as [W1 W2].
      destruct (comp_enc _ _ _ _ _ A W1 W2) as [E1 P1]. destruct (all_enc _ _ _ _ _ H (fun g I => W g (or_intror I))) as [E2 P2].
      rewrite !payload_cons, E1, E2. split; [reflexivity|constructor; assumption].
    - destruct H as [fs0 vs0 f|fs0 vs0 f v w Q D|fs0 vs0 f n d k u b w q m FO G RR NS FT Q|fs0 vs0 f n d k u bs ws s m t FO G RR NS FT Q]; intros OW C.
      + split; reflexivity.
      + split; [|reflexivity]. unfold enc_slot. destruct (fpres f) eqn:P; try (rewrite (keeps_enc _ _ _ Q C); reflexivity).
        destruct (fdef f) as [dv|] eqn:FD; [|reflexivity]. specialize (D dv eq_refl eq_refl).
        assert (E : aval_eqb w dv = aval_eqb v dv).
        { destruct (aval_eqb v dv) eqn:E1.
          - apply aval_eqb_sound in E1. apply D in E1. subst w. apply (proj2 EqbFacts.eqb_refl).
          - destruct (aval_eqb w dv) eqn:E2; [|reflexivity]. apply aval_eqb_sound in E2. apply D in E2. subst v. rewrite (proj2 EqbFacts.eqb_refl) in E1. discriminate E1. }
        rewrite E, (keeps_enc _ _ _ Q C). reflexivity.
      + split; [|reflexivity]. destruct (OW _ _ _ _ FO RR NS) as [NP CA]. rewrite FT in CA. cbn [element] in CA.
        destruct (object_enc _ _ _ _ Q (RC _ _ _ RR)) as (w' & -> & E). unfold enc_slot. rewrite FO, FT. cbn [is_some].
        destruct (fpres f); [| |congruence]; rewrite (carried _ _ _ _ _ CA E); reflexivity.
      + split; [|reflexivity]. destruct (OW _ _ _ _ FO RR NS) as [NP CA]. rewrite FT in CA. cbn [element] in CA. unfold enc_slot. rewrite FO, FT. cbn [is_some].
        assert (E : enc (VList ws) true (is_opt (fpres f)) (TOf s m (Some t)) = enc (VList (map VOcts bs)) true (is_opt (fpres f)) (TOf s m (Some t))).
        { rewrite !enc_of_eq.
          assert (E : enc_list true (is_opt (fpres f)) t ws = enc_list true (is_opt (fpres f)) t (map VOcts bs) /\ List.length ws = List.length (map VOcts bs)).
          { unfold enc_list. induction Q as [|b w bs ws A Q [I1 I2]]; [split; reflexivity|]. cbn [map rmap List.length].
            destruct (object_enc _ _ _ _ A (RC _ _ _ RR)) as (w' & -> & E). rewrite (carried _ _ _ _ _ CA E), I1. split; [reflexivity|congruence]. }
          destruct E as [-> L]. rewrite (csat_list [] _ _ L). reflexivity. }
        destruct (fpres f) eqn:P; [| |congruence]; cbn [is_opt] in *; rewrite E; reflexivity.
    - intro C. destruct H as [ine u b v w DE E Q]. exists w. split; [reflexivity|]. rewrite (keeps_enc _ _ _ Q C). exact E.
  Qed.

  (** Encoding the value decoded with decodeOpenTypes gives what encoding the value decoded
      without gives. *)
  Theorem reencoded : forall t v w, carrying R t -> keeps R t v w -> encode t w = encode t v.
  Proof. intros t v w C H. exact (keeps_enc t v w H C false false). Qed.
End keep.

End codec.
