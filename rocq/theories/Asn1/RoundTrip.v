(** Decoding inverts encoding, for every well-formed type and conforming value, with
    anything following in the input. *)
From Coq Require Import List String ZArith NArith Bool Lia Permutation.
From Verif Require Import Asn1.Types Py.Eval Asn1.EqbFacts Asn1.Bytes Asn1.Charset Asn1.Der Asn1.Wf.
Import ListNotations.
Open Scope string_scope.
Open Scope N_scope.
Open Scope list_scope.

Section codec.
Context {Cdc : codec}.

(** ** Equations *)

Lemma rbind_ok : forall {A B} (x : res A) (f : A -> res B) b, rbind x f = Ok b -> exists a, x = Ok a /\ f a = Ok b.
Proof. intros A B x f b H. destruct x; cbn in H; try discriminate. eauto. Qed.

Definition enc_fields : list (option aval) -> list field -> res (list (list tag * bytes)) :=
  fix go (vs : list (option aval)) (fs : list field) {struct vs} : res (list (list tag * bytes)) :=
    match vs, fs with
    | [], [] => Ok []
    | o :: vs', Fld _ p t' d opn' :: fs' =>
        let! r := go vs' fs' in
        match o with
        | None =>
            match p with
            | Req => let! c := match enc_kept t' d with Some c => c | None => enc_absent false t' end in Ok ((sort_key t' None, c) :: r)
            | _ => Ok r
            end
        | Some x =>
            match p, d with
            | Def, None => Err
            | Def, Some dv =>
                if aval_eqb x dv then Ok r
                else let! c := enc x (is_some opn') false t' in Ok ((sort_key t' o, c) :: r)
            | _, _ => let! c := enc x (is_some opn') (is_opt p) t' in Ok ((sort_key t' o, c) :: r)
            end
        end
    | _, _ => Unm
    end.

Definition key_le (a b : list tag * bytes) : bool := tags_le (fst a) (fst b).
Lemma enc_seq_eq : forall vs opn ine isset m fs,
  enc (VSeq vs) opn ine (TSeq isset m fs) =
  if ctruthy (spec m) && negb (csat (fnames fs) (spec m) (VSeq vs)) then Err
  else let! cs := enc_fields vs fs in
       finish (tags m) true ine (List.concat (map snd (if isset then isort key_le cs else cs))).
Proof. reflexivity. Qed.

Definition enc_list (opn ine : bool) (t : asn1) (vs : list aval) : res (list bytes) := rmap (fun x => enc x opn ine t) vs.
Lemma enc_of_eq : forall vs opn ine isset m t,
  enc (VList vs) opn ine (TOf isset m (Some t)) =
  if ctruthy (spec m) && negb (csat [] (spec m) (VList vs)) then Err
  else let! cs := enc_list opn ine t vs in
       finish (tags m) true ine (List.concat (if isset then isort octs_le cs else cs)).
Proof.
  intros. cbn [enc].
  assert (E : (fix go (vs : list aval) {struct vs} : res (list bytes) :=
              match vs with
              | [] => Ok []
              | x :: vs' => let! c := enc x opn ine t in
                            let! r := go vs' in Ok (c :: r)
              end) vs = enc_list opn ine t vs).
  { unfold enc_list. induction vs as [|x vs IH]; [reflexivity|]. cbn [rmap]. rewrite <- IH. reflexivity. }
  rewrite E. reflexivity.
Qed.

Definition fcomp (O : option opener) (f : field) : comp :=
  mkC (fpres f) (fdef f) (fmap f) (is_any (ftype f)) (dec_val O (ftype f)).
Lemma comps_eq : forall O fs,
  (fix comps (fs : list field) : list comp :=
    match fs with
    | [] => []
    | Fld _ p t' d _ :: fs' => mkC p d (tag_map t') (is_any t') (dec_val O t') :: comps fs'
    end) fs = map (fcomp O) fs.
Proof. intros O fs. induction fs as [|[n p t d o] fs IH]; [reflexivity|]. cbn [map]. rewrite <- IH. reflexivity. Qed.

Lemma dec_seq_val : forall O isset m fs ts tlv c, dec_val O (TSeq isset m fs) ts tlv c =
  if constructed ts then
    match fs, c with
    | [], _ :: _ => Unm
    | _, _ =>
        let cs := map (fcomp O) fs in
        let! vs := if isset then let! sl := dec_set (List.length c) cs (map (fun _ => None) cs) c in fill cs sl
                   else dec_seq (List.length cs) cs c in
        if existsb (fun f => is_some (fopen f)) fs then
          match O with
          | None => Ok (VSeq vs)
          | Some Op => let! vs' := open_slots Op fs vs fs vs in Ok (VSeq vs')
          end
        else if ctruthy (spec m) && negb (csat (fnames fs) (spec m) (VSeq vs)) then Err
        else Ok (VSeq vs)
    end
  else Err.
Proof. intros. cbn [dec_val]. rewrite comps_eq. reflexivity. Qed.
Lemma dec_choice_val : forall O m alts ts tlv c, dec_val O (TChoice m alts) ts tlv c =
  let cs := map (fcomp O) alts in
  if tags_eqb ts (tags m) then let! (i, v, _) := dec_run cs c in Ok (VAlt i v)
  else let! (i, k) := choose cs ts in let! v := c_val k ts c c in Ok (VAlt i v).
Proof. intros. cbn [dec_val]. rewrite comps_eq. reflexivity. Qed.

Lemma tag_map_choice : forall m alts, tag_map (TChoice m alts) =
  match tags m with [] => tmap_union (map fmap alts) | ts => mkT [ts] false true end.
Proof.
  intros. cbn [tag_map].
  assert (E : (fix go (l : list field) : list tmap :=
     match l with [] => [] | Fld _ _ t' _ _ :: l' => tag_map t' :: go l' end) alts = map fmap alts).
  { induction alts as [|[n p t d o] l IH]; [reflexivity|]. cbn [map]. rewrite <- IH. reflexivity. }
  rewrite E. reflexivity.
Qed.

Definition wf_field (f : field) : bool :=
  wf (ftype f) && (match fpres f with Def => is_some (fdef f) | _ => true end)
  && (match fopen f with Some _ => openable (ftype f) | None => true end).
Lemma wf_fields_eq : forall fs,
  (fix go (fs : list field) : bool :=
    match fs with
    | [] => true
    | Fld _ p t' d o :: fs' =>
        wf t' && (match p with Def => is_some d | _ => true end)
        && (match o with Some _ => openable t' | None => true end) && go fs'
    end) fs = forallb wf_field fs.
Proof. induction fs as [|[n p t d o] fs IH]; [reflexivity|]. cbn [forallb]. rewrite <- IH. reflexivity. Qed.
Lemma wf_seq : forall isset m fs, wf (TSeq isset m fs) =
  nonempty (tags m) && outer_ok true (tags m) && (if isset then alts_ok fs else runs_ok fs) && forallb wf_field fs.
Proof. intros. cbn [wf]. rewrite wf_fields_eq. reflexivity. Qed.
Lemma wf_choice : forall m fs, wf (TChoice m fs) = outer_ok true (tags m) && alts_ok fs && forallb wf_field fs.
Proof. intros. cbn [wf]. rewrite wf_fields_eq. reflexivity. Qed.

(** ** Tags *)

Lemma tag_eqb_refl : forall a, tag_eqb a a = true.
Proof. intros [c k n]. unfold tag_eqb. cbn. rewrite N.eqb_refl. destruct c; reflexivity. Qed.
Lemma tclass_eqb_eq : forall a b, tclass_eqb a b = true -> a = b.
Proof. intros [] []; cbn; congruence. Qed.
Lemma tag_eqb_sym : forall a b, tag_eqb a b = tag_eqb b a.
Proof. intros [c k n] [c' k' n']. unfold tag_eqb. cbn. rewrite N.eqb_sym. destruct c, c'; reflexivity. Qed.
Lemma tag_eqb_trans : forall a b c, tag_eqb a b = true -> tag_eqb b c = true -> tag_eqb a c = true.
Proof.
  intros [c k n] [c' k' n'] [c'' k'' n'']. unfold tag_eqb. cbn. intros H1 H2.
  apply andb_true_iff in H1, H2. destruct H1 as [A B], H2 as [C D].
  apply tclass_eqb_eq in A, C. apply N.eqb_eq in B, D. subst. rewrite N.eqb_refl. destruct c''; reflexivity.
Qed.
Lemma tags_eqb_refl : forall a, tags_eqb a a = true.
Proof. induction a as [|x a IH]; cbn; [reflexivity|]. rewrite tag_eqb_refl. exact IH. Qed.
Lemma tags_eqb_sym : forall a b, tags_eqb a b = tags_eqb b a.
Proof. unfold tags_eqb. induction a as [|x a IH]; intros [|y b]; cbn; try reflexivity. rewrite tag_eqb_sym, IH. reflexivity. Qed.
Lemma tags_eqb_trans : forall a b c, tags_eqb a b = true -> tags_eqb b c = true -> tags_eqb a c = true.
Proof.
  unfold tags_eqb. induction a as [|x a IH]; intros [|y b] [|z c]; cbn; try congruence. intros H1 H2.
  apply andb_true_iff in H1, H2. destruct H1 as [A B], H2 as [C D].
  rewrite (tag_eqb_trans _ _ _ A C), (IH _ _ B D). reflexivity.
Qed.
Lemma tags_eqb_length : forall a b, tags_eqb a b = true -> List.length a = List.length b.
Proof.
  unfold tags_eqb. induction a as [|x a IH]; intros [|y b] H; cbn in H; try congruence.
  apply andb_true_iff in H. cbn. f_equal. apply IH, H.
Qed.
Lemma tags_eqb_skip : forall p q x, tags_eqb (p ++ q) x = true -> exists p' q', x = p' ++ q' /\ tags_eqb q q' = true /\ List.length p = List.length p'.
Proof.
  induction p as [|a p IH]; intros q x H.
  - exists [], x. repeat split. exact H.
  - destruct x as [|y x]; cbn in H; [discriminate|]. apply andb_true_iff in H. destruct H as [_ H].
    destruct (IH _ _ H) as (p' & q' & -> & E & L). exists (y :: p'), q'. cbn. auto.
Qed.
Lemma mem_tags_trans : forall a b l, tags_eqb a b = true -> mem_tags b l = true -> mem_tags a l = true.
Proof.
  intros a b l E H. unfold mem_tags in *. apply existsb_exists in H. destruct H as (x & I & Q).
  apply existsb_exists. exists x. split; [exact I|]. exact (tags_eqb_trans _ _ _ E Q).
Qed.
Lemma mem_tags_in : forall a l, mem_tags a l = true -> exists x, In x l /\ tags_eqb a x = true.
Proof. intros a l H. apply existsb_exists in H. exact H. Qed.
Lemma mem_tags_app : forall a l1 l2, mem_tags a (l1 ++ l2) = mem_tags a l1 || mem_tags a l2.
Proof. intros. unfold mem_tags. apply existsb_app. Qed.

Lemma suffix_b_app : forall p q q', tags_eqb q q' = true -> suffix_b q (p ++ q') = true.
Proof.
  induction p as [|a p IH]; intros q q' H; cbn [app].
  - destruct q'; cbn [suffix_b]; rewrite H; reflexivity.
  - cbn [suffix_b]. rewrite (IH _ _ H). apply orb_true_r.
Qed.
(** Outer parts of a key are not keys. *)
Lemma no_suffix_outer : forall ks ts p q, no_suffix ks = true -> mem_tags ts ks = true -> ts = p ++ q ->
  p <> [] -> q <> [] -> mem_tags q ks = false.
Proof.
  intros ks ts p q N H E P Q. destruct (mem_tags q ks) eqn:M; [exfalso|reflexivity].
  apply mem_tags_in in H. destruct H as (x & Ix & Ex). apply mem_tags_in in M. destruct M as (y & Iy & Ey).
  unfold no_suffix in N. rewrite forallb_forall in N. specialize (N x Ix). cbv beta in N. rewrite forallb_forall in N.
  specialize (N y Iy). cbv beta in N. apply negb_true_iff in N.
  subst ts. apply tags_eqb_skip in Ex. destruct Ex as (p' & q' & -> & E & L).
  destruct p' as [|a p']; [destruct p; [congruence|discriminate]|]. cbn [app] in N.
  assert (SU : suffix_b y (p' ++ q') = true).
  { apply suffix_b_app. rewrite tags_eqb_sym in Ey. exact (tags_eqb_trans _ _ _ Ey E). }
  unfold psuffix in N. destruct y as [|b y]; [apply tags_eqb_length in Ey; destruct q; [congruence|discriminate]|].
  rewrite SU in N. discriminate.
Qed.

Lemma distinct_app : forall l1 l2, distinct (l1 ++ l2) = true ->
  distinct l1 = true /\ distinct l2 = true /\ forall a, mem_tags a l1 = true -> mem_tags a l2 = false.
Proof.
  induction l1 as [|x l1 IH]; intros l2 H.
  - repeat split; auto. intros a M. discriminate.
  - cbn [app distinct] in H. apply andb_true_iff in H. destruct H as [A B]. apply negb_true_iff in A.
    rewrite mem_tags_app in A. apply orb_false_iff in A. destruct A as [A1 A2].
    destruct (IH _ B) as (D1 & D2 & D3). cbn [distinct]. rewrite A1, D1. repeat split; auto.
    intros a M. cbn [mem_tags existsb] in M. apply orb_true_iff in M. destruct M as [M|M]; [|apply D3, M].
    destruct (mem_tags a l2) eqn:Q; [exfalso|reflexivity].
    rewrite tags_eqb_sym in M. rewrite (mem_tags_trans _ _ _ M Q) in A2. discriminate.
Qed.

(** ** Reading what [wrap] wrote *)

(** A tag as read back: the constructed bit may have been added. *)
Definition rb (k : bool) (t : tag) : tag := mkTag (tcls t) (tcons t || k) (tnum t).
Lemma rb_eqb : forall k ts, tags_eqb (map (rb k) ts) ts = true.
Proof.
  intros k ts. induction ts as [|[c f n] ts IH]; [reflexivity|]. cbn. unfold tag_eqb. cbn. rewrite N.eqb_refl.
  destruct c; exact IH.
Qed.

Lemma dec_put_header : forall t k c s rest, put_header t k c = Ok s -> dec_header (s ++ rest) = Some (rb k t, c, rest).
Proof.
  intros t k c s rest H. unfold put_header in H. destruct (enc_header t k c) eqn:E; [|discriminate].
  inversion H; subst. exact (dec_enc_header _ _ _ _ rest E).
Qed.
Lemma put_header_length : forall t k c s, put_header t k c = Ok s -> (List.length c + 2 <= List.length s)%nat.
Proof.
  intros t k c s H. pose proof (dec_put_header t k c s [] H) as D. apply dec_header_inv in D.
  destruct D as (h & E & L). rewrite !app_nil_r in E. subst s. rewrite app_length. lia.
Qed.
Lemma wrap_snoc : forall ts t k c, wrap (ts ++ [t]) k c = let! c' := wrap ts k c in put_header t k c'.
Proof.
  induction ts as [|x ts IH]; intros t k c; cbn [app wrap].
  - cbn [rbind]. destruct (put_header t k c); reflexivity.
  - destruct (put_header x k c) as [c'| | |]; cbn [rbind]; [apply IH|reflexivity|reflexivity|reflexivity].
Qed.
Lemma wrap_length : forall ts k c bs, wrap ts k c = Ok bs -> (List.length c + 2 * List.length ts <= List.length bs)%nat.
Proof.
  induction ts as [|t ts IH]; intros k c bs H; cbn [wrap] in H.
  - inversion H; subst. cbn. lia.
  - apply rbind_ok in H. destruct H as (c' & A & B). apply put_header_length in A. apply IH in B. cbn [List.length]. lia.
Qed.

Definition outside (k : bool) (t : tag) : bool := (tcons t || k) && negb (tclass_eqb (tcls t) Universal).

Lemma descend_wrap : forall ts k c bs, wrap ts k c = Ok bs -> ts <> [] -> forallb (outside k) (tl ts) = true ->
  exists tlv, forall fuel accept acc rest, (List.length ts <= fuel)%nat ->
    accept (map (rb k) ts ++ acc) = true ->
    (forall p q, ts = p ++ q -> p <> [] -> q <> [] -> accept (map (rb k) q ++ acc) = false) ->
    descend fuel accept acc (bs ++ rest) = Ok (map (rb k) ts ++ acc, tlv, c, rest).
Proof.
  intros ts. induction ts as [|t ts IH] using rev_ind; intros k c bs H NE OUT; [congruence|].
  rewrite wrap_snoc in H. apply rbind_ok in H. destruct H as (c' & W & PH).
  destruct ts as [|t0 ts'].
  - cbn in W. inversion W; subst c'. clear W IH. exists bs.
    intros fuel accept acc rest L A _. cbn [app map] in *. destruct fuel as [|f]; [cbn in L; lia|].
    cbn [descend]. rewrite (dec_put_header _ _ _ _ rest PH), A.
    rewrite app_length, Nat.add_sub, firstn_app, Nat.sub_diag, firstn_all. cbn [firstn]. rewrite app_nil_r. reflexivity.
  - set (ts := t0 :: ts') in *. assert (NE' : ts <> []) by discriminate.
    assert (OUT' : forallb (outside k) (tl ts) = true /\ outside k t = true).
    { unfold ts in OUT. cbn [app tl] in OUT. rewrite forallb_app in OUT. cbn [forallb] in OUT.
      apply andb_true_iff in OUT. destruct OUT as [O1 O2]. rewrite andb_true_r in O2. split; [exact O1|exact O2]. }
    clearbody ts. destruct OUT' as [OUT1 OUT2]. destruct (IH _ _ _ W NE' OUT1) as [tlv D]. exists tlv.
    intros fuel accept acc rest L A B. rewrite map_app in *. cbn [map] in *. rewrite <- app_assoc in *. cbn [app] in *.
    destruct fuel as [|f]; [rewrite app_length in L; cbn in L; lia|].
    cbn [descend]. rewrite (dec_put_header _ _ _ _ rest PH).
    pose proof (B ts [t] eq_refl NE' ltac:(discriminate)) as B0. cbn [map app] in B0. rewrite B0. clear B0.
    unfold outside in OUT2. change (tcons (rb k t)) with (tcons t || k). change (tcls (rb k t)) with (tcls t). rewrite OUT2.
    rewrite <- (app_nil_r c') at 1. rewrite (D f accept (rb k t :: acc) []).
    + reflexivity.
    + rewrite app_length in L. cbn [List.length] in L. lia.
    + exact A.
    + intros p q E P Q. specialize (B p (q ++ [t])). rewrite map_app, <- app_assoc in B. cbn [map app] in B.
      apply B; [rewrite E, app_assoc; reflexivity|exact P|destruct q; discriminate].
Qed.

(** An item with tags [ts] (as read), innermost octets [tlv] and contents [c]. *)
Definition reads (bs : bytes) (ts : list tag) (tlv c : bytes) : Prop :=
  forall accept rest, accept ts = true ->
    (forall p q, ts = p ++ q -> p <> [] -> q <> [] -> accept q = false) ->
    item accept (bs ++ rest) = Ok (ts, tlv, c, rest).

Lemma reads_wrap : forall ts k c bs, wrap ts k c = Ok bs -> ts <> [] -> outer_ok k ts = true ->
  exists tlv, reads bs (map (rb k) ts) tlv c.
Proof.
  intros ts k c bs W NE OUT. destruct (descend_wrap ts k c bs W NE OUT) as [tlv D]. exists tlv.
  intros accept rest A B. unfold item. rewrite (D _ accept [] rest).
  - rewrite app_nil_r. reflexivity.
  - apply wrap_length in W. rewrite app_length. lia.
  - rewrite app_nil_r. exact A.
  - intros p q E P Q. rewrite app_nil_r. apply (B (map (rb k) p) (map (rb k) q)).
    + rewrite E, map_app. reflexivity.
    + destruct p; [congruence|discriminate].
    + destruct q; [congruence|discriminate].
Qed.

(** ** Items of a type *)

(** [bs] is an encoding of [v]: read with any tag map that accepts its tags, it gives
    back [v]. *)
Definition good (O : option opener) (t : asn1) (v : aval) (bs : bytes) : Prop :=
  exists ts tlv c, reads bs ts tlv c /\ bs <> [] /\ ts <> [] /\
    accepts (tag_map t) ts = true /\
    (dflt (tag_map t) = false -> forall p q, ts = p ++ q -> p <> [] -> q <> [] -> mem_tags q (keys (tag_map t)) = false) /\
    dec_val O t ts tlv c = Ok v /\
    (dflt (tag_map t) = false -> dec_val O t ts c c = Ok v) /\
    (dflt (tag_map t) = true -> List.length ts = 1%nat).

Lemma accepts_keys : forall M ts, accepts M ts = true -> dflt M = false -> mem_tags ts (keys M) = true.
Proof. intros M ts A D. unfold accepts in A. rewrite D in A. cbn in A. rewrite orb_false_r in A. exact A. Qed.

Lemma one_no_outer : forall {A} (ts : list A) p q, List.length ts = 1%nat -> ts = p ++ q -> p <> [] -> q <> [] -> False.
Proof.
  intros A ts p q L E P Q. subst. rewrite app_length in L. destruct p; [congruence|]. destruct q; [congruence|]. cbn in L. lia.
Qed.

(** Decoded with its own type. *)
Lemma dec_one_good : forall O f v bs rest, tok (fmap f) = true -> good O (ftype f) v bs ->
  dec_one (fcomp O f) (bs ++ rest) = Ok (v, rest).
Proof.
  intros O f v bs rest K (ts & tlv & c & R & _ & _ & A & B & D & _ & F). unfold dec_one.
  change (c_map (fcomp O f)) with (fmap f). rewrite K. unfold fmap in *.
  rewrite (R (accepts (tag_map (ftype f))) rest A).
  - cbn [rbind]. change (c_val (fcomp O f)) with (dec_val O (ftype f)). rewrite D. reflexivity.
  - intros p q E P Q. destruct (dflt (tag_map (ftype f))) eqn:DF.
    + exfalso. exact (one_no_outer ts p q (F eq_refl) E P Q).
    + unfold accepts. rewrite DF, (B eq_refl p q E P Q). reflexivity.
Qed.

Lemma union_keys : forall fs, keys (tmap_union (map fmap fs)) = flat_map (fun f => keys (fmap f)) fs.
Proof. intro fs. cbn. induction fs as [|f fs IH]; [reflexivity|]. cbn. rewrite IH. reflexivity. Qed.
Lemma comps_map : forall O fs, map c_map (map (fcomp O) fs) = map fmap fs.
Proof. intros. rewrite map_map. reflexivity. Qed.

Lemma union_tok : forall fs f, tok (tmap_union (map fmap fs)) = true -> In f fs -> tok (fmap f) = true.
Proof.
  intros fs f T I. cbn in T. apply andb_true_iff in T. destruct T as [T _]. apply andb_true_iff in T. destruct T as [T _].
  rewrite forallb_forall in T. apply T, in_map, I.
Qed.
Lemma union_distinct : forall fs, tok (tmap_union (map fmap fs)) = true -> distinct (flat_map (fun f => keys (fmap f)) fs) = true.
Proof.
  intros fs T. rewrite <- union_keys. cbn [tok tmap_union] in T. apply andb_true_iff in T. destruct T as [T _].
  apply andb_true_iff in T. destruct T as [_ T]. exact T.
Qed.
Lemma union_dflt : forall fs f, dflt (tmap_union (map fmap fs)) = false -> In f fs -> dflt (fmap f) = false.
Proof.
  intros fs f D I. destruct (dflt (fmap f)) eqn:E; [|reflexivity]. rewrite <- D. symmetry. cbn.
  apply existsb_exists. exists (fmap f). split; [apply in_map, I|exact E].
Qed.

Lemma find_key_nth : forall O fs j f ts k, distinct (flat_map (fun f => keys (fmap f)) fs) = true ->
  nth_error fs j = Some f -> mem_tags ts (keys (fmap f)) = true ->
  find_key k (map (fcomp O) fs) ts = Some ((k + j)%nat, fcomp O f).
Proof.
  intros O fs. induction fs as [|g fs IH]; intros j f ts k D N M; [destruct j; discriminate|].
  cbn [flat_map] in D. destruct (distinct_app _ _ D) as (_ & D2 & D3).
  cbn [map find_key]. change (c_map (fcomp O g)) with (fmap g).
  destruct j as [|j]; cbn [nth_error] in N.
  - inversion N; subst g. rewrite M, Nat.add_0_r. reflexivity.
  - destruct (mem_tags ts (keys (fmap g))) eqn:E.
    + exfalso. specialize (D3 _ E). apply nth_error_In in N.
      assert (X : mem_tags ts (flat_map (fun f => keys (fmap f)) fs) = true).
      { apply mem_tags_in in M. destruct M as (x & I & Q). apply existsb_exists. exists x. split; [|exact Q].
        apply in_flat_map. exists f. split; assumption. }
      congruence.
    + rewrite (IH j f ts (S k) D2 N M). f_equal. f_equal. lia.
Qed.

Lemma key_of_union : forall fs f ts, In f fs -> mem_tags ts (keys (fmap f)) = true ->
  mem_tags ts (keys (tmap_union (map fmap fs))) = true.
Proof.
  intros fs f ts I M. rewrite union_keys. apply mem_tags_in in M. destruct M as (x & J & Q).
  apply existsb_exists. exists x. split; [|exact Q]. apply in_flat_map. exists f. split; assumption.
Qed.

Lemma choose_nth : forall O fs j f ts, tok (tmap_union (map fmap fs)) = true -> nth_error fs j = Some f ->
  mem_tags ts (keys (fmap f)) = true -> choose (map (fcomp O) fs) ts = Ok (j, fcomp O f).
Proof.
  intros O fs j f ts K N M. unfold choose. rewrite (find_key_nth O fs j f ts 0 (union_distinct _ K) N M). reflexivity.
Qed.

(** Decoded among alternatives without ANY. *)
Lemma dec_run_alts : forall O fs j f v bs rest, alts_ok fs = true -> nth_error fs j = Some f ->
  good O (ftype f) v bs -> dec_run (map (fcomp O) fs) (bs ++ rest) = Ok (j, v, rest).
Proof.
  intros O fs j f v bs rest AL N (ts & tlv & c & R & _ & _ & A & B & D & _ & F).
  unfold alts_ok in AL. apply andb_true_iff in AL. destruct AL as [AL DF]. apply andb_true_iff in AL. destruct AL as [K NS].
  apply negb_true_iff in DF. pose proof (nth_error_In _ _ N) as I. pose proof (union_dflt _ _ DF I) as DFf.
  pose proof (accepts_keys _ _ A DFf) as M.
  unfold dec_run. rewrite comps_map, K. rewrite (R (accepts (tmap_union (map fmap fs))) rest).
  - cbn [rbind]. rewrite (choose_nth O fs j f ts K N M). cbn [rbind].
    change (c_val (fcomp O f)) with (dec_val O (ftype f)). rewrite D. reflexivity.
  - unfold accepts. rewrite (key_of_union fs f ts I M). reflexivity.
  - intros p q E P Q. unfold accepts. rewrite DF. rewrite (no_suffix_outer _ ts p q NS (key_of_union fs f ts I M) E P Q). reflexivity.
Qed.

(** ... and in a run of a SEQUENCE. *)
Definition any_direct (f : field) : Prop := dflt (fmap f) = true -> is_any (ftype f) = true.
Lemma dec_run_good : forall O fs j f v bs rest, run_ok fs = true -> any_direct f -> nth_error fs j = Some f ->
  good O (ftype f) v bs -> dec_run (map (fcomp O) fs) (bs ++ rest) = Ok (j, v, rest).
Proof.
  intros O fs j f v bs rest RO AD N G. unfold run_ok in RO.
  apply andb_true_iff in RO. destruct RO as [RO LEN]. apply andb_true_iff in RO. destruct RO as [K NS].
  destruct (dflt (tmap_union (map fmap fs))) eqn:DF.
  - cbn [negb orb] in LEN. apply Nat.eqb_eq in LEN. destruct fs as [|g [|]]; try discriminate.
    destruct j as [|[|]]; cbn in N; try discriminate. inversion N; subst g. clear N LEN.
    assert (DFf : dflt (fmap f) = true) by (cbn in DF; rewrite orb_false_r in DF; exact DF).
    destruct G as (ts & tlv & c & R & _ & _ & A & B & D & _ & F). specialize (F DFf).
    assert (AC : accepts (tmap_union (map fmap [f])) = accepts (fmap f)).
    { unfold accepts. cbn [map tmap_union keys dflt flat_map existsb]. rewrite app_nil_r, orb_false_r. reflexivity. }
    unfold dec_run. rewrite comps_map, K, AC. rewrite (R (accepts (fmap f)) rest A).
    + cbn [rbind]. unfold choose. cbn [map find_key find_dflt]. change (c_map (fcomp O f)) with (fmap f).
      rewrite DFf. destruct (mem_tags ts (keys (fmap f))); cbv beta iota;
        [|change (c_any (fcomp O f)) with (is_any (ftype f)); rewrite (AD DFf)]; cbn [rbind];
        change (c_val (fcomp O f)) with (dec_val O (ftype f)); rewrite D; reflexivity.
    + intros p q E P Q. exfalso. exact (one_no_outer ts p q F E P Q).
  - apply (dec_run_alts O fs j f v bs rest); auto. unfold alts_ok. rewrite K, NS, DF. reflexivity.
Qed.

(** ** SEQUENCE *)

Inductive slots (O : option opener) : list field -> list (option aval) -> list bytes -> Prop :=
| sl_nil : slots O [] [] []
| sl_absent : forall f fs vs ch, freq f = false -> slots O fs vs ch ->
    slots O (f :: fs) (absent (fcomp O f) :: vs) ch
| sl_present : forall f fs v vs bs ch, good O (ftype f) v bs -> slots O fs vs ch ->
    slots O (f :: fs) (Some v :: vs) (bs :: ch).

Lemma frun_app : forall pre fs, (forall f, In f pre -> freq f = false) -> frun (pre ++ fs) = pre ++ frun fs.
Proof.
  induction pre as [|f pre IH]; intros fs H; [reflexivity|]. cbn [app frun]. rewrite (H f (or_introl eq_refl)), IH; auto.
  intros g I. apply H. right. exact I.
Qed.
Lemma run_map : forall O fs, run (map (fcomp O) fs) = map (fcomp O) (frun fs).
Proof.
  induction fs as [|f fs IH]; [reflexivity|]. cbn [map run frun]. change (required (fcomp O f)) with (freq f).
  destruct (freq f); [reflexivity|]. rewrite IH. reflexivity.
Qed.

(** The first present component. *)
Lemma slots_split : forall O fs vs ch, slots O fs vs ch ->
  (ch = [] /\ vs = map absent (map (fcomp O) fs) /\ existsb required (map (fcomp O) fs) = false) \/
  exists pre f post v vs' bs ch', fs = pre ++ f :: post /\ vs = map absent (map (fcomp O) pre) ++ Some v :: vs' /\
    ch = bs :: ch' /\ (forall g, In g pre -> freq g = false) /\ good O (ftype f) v bs /\ slots O post vs' ch'.
Proof.
  intros O fs vs ch H. induction H as [|f fs vs ch A H IH|f fs v vs bs ch G H IH].
  - left. repeat split.
  - destruct IH as [(-> & -> & E)|(pre & g & post & v & vs' & bs & ch' & -> & -> & -> & P & G & SL)].
    + left. cbn. change (required (fcomp O f)) with (freq f). rewrite A, E. repeat split.
    + right. exists (f :: pre), g, post, v, vs', bs, ch'. repeat split; auto.
      intros x [<-|I]; auto.
  - right. exists [], f, fs, v, vs, bs, ch. repeat split; auto. intros g [].
Qed.

Lemma runs_ok_app : forall pre fs, runs_ok (pre ++ fs) = true -> runs_ok fs = true.
Proof. induction pre as [|f pre IH]; intros fs H; [exact H|]. cbn in H. apply andb_true_iff in H. apply IH, H. Qed.

Lemma good_nonempty : forall O t v bs, good O t v bs -> bs <> [].
Proof. intros O t v bs (ts & tlv & c & _ & H & _). exact H. Qed.

Lemma dec_seq_slots : forall n O fs vs ch fuel, (List.length fs <= n)%nat -> slots O fs vs ch -> runs_ok fs = true ->
  (forall f, In f fs -> tok (fmap f) = true /\ any_direct f) -> (List.length fs <= fuel)%nat ->
  dec_seq fuel (map (fcomp O) fs) (List.concat ch) = Ok vs.
Proof.
  induction n as [|n IH]; intros O fs vs ch fuel L SL RU OK FU.
  - destruct fs; [|cbn in L; lia]. inversion SL; subst. destruct fuel; reflexivity.
  - destruct (slots_split _ _ _ _ SL) as [(-> & -> & E)|(pre & f & post & v & vs' & bs & ch' & -> & -> & -> & P & G & SL')].
    + cbn [List.concat]. destruct fuel; cbn [dec_seq]; rewrite E; reflexivity.
    + cbn [List.concat]. pose proof (good_nonempty _ _ _ _ G) as NE.
      assert (I : In f (pre ++ f :: post)) by (apply in_or_app; right; left; reflexivity).
      assert (REST : forall fuel, (List.length post <= fuel)%nat -> dec_seq fuel (map (fcomp O) post) (List.concat ch') = Ok vs').
      { intros fu Hfu. apply (IH O post vs' ch' fu).
        - rewrite app_length in L. cbn in L. lia.
        - exact SL'.
        - apply (runs_ok_app (pre ++ [f])). rewrite <- app_assoc. exact RU.
        - intros g Ig. apply OK. apply in_or_app. right. right. exact Ig.
        - exact Hfu. }
      assert (S1 : forall x, exists b s, bs ++ x = b :: s) by (intro x; destruct bs as [|b s]; [congruence|]; exists b, (s ++ x); reflexivity).
      destruct (S1 (List.concat ch')) as (b0 & s0 & ES).
      destruct pre as [|g pre].
      * cbn [app map] in *. destruct fuel as [|fuel]; [cbn in FU; lia|]. cbn [List.length] in FU.
        cbn [dec_seq]. rewrite ES. change (required (fcomp O f)) with (freq f). rewrite <- ES.
        destruct (freq f) eqn:FR.
        -- rewrite (dec_one_good O f v bs _ (proj1 (OK f I)) G). cbn [rbind]. rewrite REST by lia. reflexivity.
        -- change (fcomp O f :: map (fcomp O) post) with (map (fcomp O) (f :: post)). rewrite run_map.
           cbn [runs_ok] in RU. rewrite FR in RU. cbn [orb] in RU. apply andb_true_iff in RU. destruct RU as [RU _].
           rewrite (dec_run_good O (frun (f :: post)) 0 f v bs _ RU (proj2 (OK f I))); [|cbn [frun]; rewrite FR; reflexivity|exact G].
           cbn [rbind skipn map firstn]. rewrite REST by lia. reflexivity.
      * destruct fuel as [|fuel]; [cbn in FU; lia|]. cbn [app map] in *. cbn [List.length] in FU. rewrite app_length in FU. cbn [List.length] in FU.
        cbn [dec_seq]. rewrite ES. change (required (fcomp O g)) with (freq g). rewrite (P g (or_introl eq_refl)). rewrite <- ES.
        change (fcomp O g :: map (fcomp O) (pre ++ f :: post)) with (map (fcomp O) ((g :: pre) ++ f :: post)). rewrite run_map.
        cbn [runs_ok] in RU. rewrite (P g (or_introl eq_refl)) in RU. cbn [orb] in RU. apply andb_true_iff in RU. destruct RU as [RU _].
        assert (FRN : frun (g :: pre ++ f :: post) = (g :: pre) ++ frun (f :: post)).
        { change (g :: pre ++ f :: post) with ((g :: pre) ++ f :: post). apply frun_app, P. }
        assert (NTH : nth_error (frun ((g :: pre) ++ f :: post)) (List.length (g :: pre)) = Some f).
        { change ((g :: pre) ++ f :: post) with (g :: pre ++ f :: post). rewrite FRN, nth_error_app2 by lia. rewrite Nat.sub_diag. cbn [frun]. destruct (freq f); reflexivity. }
        rewrite (dec_run_good O _ (List.length (g :: pre)) f v bs _ RU (proj2 (OK f I)) NTH G).
        cbn [rbind]. rewrite map_app.
        assert (SK : skipn (S (List.length (g :: pre))) (map (fcomp O) (g :: pre) ++ map (fcomp O) (f :: post)) = map (fcomp O) post).
        { rewrite skipn_app, map_length. rewrite (skipn_all2 (map (fcomp O) (g :: pre))) by (rewrite map_length; lia).
          replace (S (List.length (g :: pre)) - List.length (g :: pre))%nat with 1%nat by lia. reflexivity. }
        assert (FN : firstn (List.length (g :: pre)) (map (fcomp O) (g :: pre) ++ map (fcomp O) (f :: post)) = map (fcomp O) (g :: pre)).
        { rewrite firstn_app, map_length, Nat.sub_diag. cbn [firstn]. rewrite app_nil_r.
          rewrite <- (map_length (fcomp O) (g :: pre)). apply firstn_all. }
        rewrite SK, FN, REST by lia. cbn [rbind]. reflexivity.
Qed.

(** ** SEQUENCE OF *)

Lemma dec_list_good : forall O t vs ch fuel, tok (tag_map t) = true -> Forall2 (good O t) vs ch ->
  (List.length ch <= fuel)%nat -> dec_list fuel (comp_of O t) (List.concat ch) = Ok vs.
Proof.
  intros O t vs ch fuel K F. revert fuel. induction F as [|v bs vs ch G F IH]; intros fuel L; [destruct fuel; reflexivity|].
  cbn [List.concat List.length] in *. destruct fuel as [|fuel]; [lia|].
  pose proof (good_nonempty _ _ _ _ G) as NE.
  pose proof (dec_one_good O (Fld "" Req t None None) v bs (List.concat ch) K G) as D.
  change (fcomp O (Fld "" Req t None None)) with (comp_of O t) in D.
  destruct bs as [|b bs]; [congruence|]. cbn [app] in *. unfold dec_list; fold dec_list. rewrite D. cbn [rbind].
  rewrite IH by lia. reflexivity.
Qed.

(** ** SET *)

Lemma insert_perm : forall {A} (le : A -> A -> bool) x l, Permutation (x :: l) (insert le x l).
Proof.
  intros A le x l. induction l as [|y l IH]; [apply Permutation_refl|]. cbn [insert]. destruct (le x y); [apply Permutation_refl|].
  apply perm_trans with (y :: x :: l); [apply perm_swap|]. apply perm_skip, IH.
Qed.
Lemma isort_perm : forall {A} (le : A -> A -> bool) l, Permutation l (isort le l).
Proof.
  intros A le l. induction l as [|x l IH]; [apply perm_nil|]. cbn [isort].
  apply perm_trans with (x :: isort le l); [apply perm_skip, IH|apply insert_perm].
Qed.
Lemma insert_map : forall {A B} (f : A -> B) (le : B -> B -> bool) x l,
  insert le (f x) (map f l) = map f (insert (fun a b => le (f a) (f b)) x l).
Proof.
  intros A B f le x l. induction l as [|y l IH]; [reflexivity|]. cbn [map insert]. destruct (le (f x) (f y)); [reflexivity|].
  cbn [map]. rewrite IH. reflexivity.
Qed.
Lemma isort_map : forall {A B} (f : A -> B) (le : B -> B -> bool) l,
  isort le (map f l) = map f (isort (fun a b => le (f a) (f b)) l).
Proof. intros A B f le l. induction l as [|x l IH]; [reflexivity|]. cbn [map isort]. rewrite IH, insert_map. reflexivity. Qed.

Definition put (l : list (option aval)) (p : nat * aval) : list (option aval) := set_nth (fst p) (Some (snd p)) l.
Lemma set_nth_comm : forall {A} i j (x y : A) l, i <> j -> set_nth i x (set_nth j y l) = set_nth j y (set_nth i x l).
Proof.
  intros A i j x y l. revert i j. induction l as [|a l IH]; intros i j N; [destruct i, j; reflexivity|].
  destruct i, j; cbn [set_nth]; try reflexivity; [congruence|]. f_equal. apply IH. congruence.
Qed.
Lemma put_perm : forall l l', Permutation l l' -> NoDup (map fst l) -> forall s, fold_left put l s = fold_left put l' s.
Proof.
  intros l l' P. induction P as [|x l l' P IH|x y l|l l' l'' P1 IH1 P2 IH2]; intros ND s.
  - reflexivity.
  - cbn in *. inversion ND; subst. apply IH. assumption.
  - cbn [fold_left]. f_equal. unfold put. apply set_nth_comm. cbn in ND. inversion ND as [|? ? A B]; subst. intro E. apply A. left. auto.
  - rewrite IH1 by assumption. apply IH2. apply (Permutation_NoDup (Permutation_map fst P1) ND).
Qed.

(** Items with their positions. *)
Lemma dec_set_items : forall O fs (its : list (nat * aval * bytes)) fuel sl, alts_ok fs = true ->
  (forall i v bs, In (i, v, bs) its -> exists f, nth_error fs i = Some f /\ good O (ftype f) v bs) ->
  (List.length its <= fuel)%nat ->
  dec_set fuel (map (fcomp O) fs) sl (List.concat (map snd its)) = Ok (fold_left put (map fst its) sl).
Proof.
  intros O fs its. induction its as [|[[i v] bs] its IH]; intros fuel sl AL H L; [destruct fuel; reflexivity|].
  cbn [map List.concat snd fst fold_left List.length] in *. destruct fuel as [|fuel]; [lia|].
  destruct (H i v bs (or_introl eq_refl)) as (f & N & G).
  pose proof (dec_run_alts O fs i f v bs (List.concat (map snd its)) AL N G) as D.
  pose proof (good_nonempty _ _ _ _ G) as NE. destruct bs as [|b bs]; [congruence|]. cbn [app] in *.
  unfold dec_set; fold dec_set. rewrite D. cbn [rbind]. rewrite IH; auto; [|lia].
  intros i' v' bs' I. apply H. right. exact I.
Qed.

(** Positions of the present components. *)
Inductive items_of (O : option opener) : nat -> list field -> list (option aval) -> list (nat * aval * bytes) -> Prop :=
| io_nil : forall k, items_of O k [] [] []
| io_absent : forall k f fs vs its, freq f = false -> items_of O (S k) fs vs its ->
    items_of O k (f :: fs) (absent (fcomp O f) :: vs) its
| io_present : forall k f fs v vs bs its, good O (ftype f) v bs -> items_of O (S k) fs vs its ->
    items_of O k (f :: fs) (Some v :: vs) ((k, v, bs) :: its).

Lemma slots_items : forall O fs vs ch, slots O fs vs ch -> forall k, exists its, items_of O k fs vs its /\ map snd its = ch.
Proof.
  intros O fs vs ch H. induction H as [|f fs vs ch A H IH|f fs v vs bs ch G H IH]; intro k.
  - exists []. split; [constructor|reflexivity].
  - destruct (IH (S k)) as (its & A1 & B). exists its. split; [constructor; assumption|exact B].
  - destruct (IH (S k)) as (its & A1 & B). exists ((k, v, bs) :: its). split; [constructor; assumption|cbn; congruence].
Qed.
Lemma items_nth : forall O k fs vs its, items_of O k fs vs its -> forall i v bs, In (i, v, bs) its ->
  exists f, nth_error fs (i - k) = Some f /\ good O (ftype f) v bs /\ (k <= i)%nat.
Proof.
  intros O k fs vs its H. induction H as [k|k f fs vs its A H IH|k f fs v vs bs its G H IH]; intros i v' bs' I.
  - destruct I.
  - destruct (IH _ _ _ I) as (g & N & G & L). exists g. replace (i - k)%nat with (S (i - S k)) by lia. repeat split; auto. lia.
  - destruct I as [E|I].
    + inversion E; subst. exists f. rewrite Nat.sub_diag. repeat split; auto.
    + destruct (IH _ _ _ I) as (g & N & G' & L). exists g. replace (i - k)%nat with (S (i - S k)) by lia. repeat split; auto. lia.
Qed.
Lemma items_nodup : forall O k fs vs its, items_of O k fs vs its -> NoDup (map fst (map fst its)).
Proof.
  intros O k fs vs its H. induction H as [k|k f fs vs its A H IH|k f fs v vs bs its G H IH]; [constructor|exact IH|].
  cbn. constructor; [|exact IH]. intro I. rewrite map_map in I. apply in_map_iff in I. destruct I as ([[i v'] bs'] & E & I). cbn in E. subst i.
  destruct (items_nth _ _ _ _ _ H _ _ _ I) as (_ & _ & _ & L). lia.
Qed.
Lemma put_prefix : forall its pre sl k, List.length pre = k -> (forall p, In p its -> (k <= fst p)%nat) ->
  fold_left put its (pre ++ sl) = pre ++ fold_left put (map (fun p => ((fst p - k)%nat, snd p)) its) sl.
Proof.
  induction its as [|[i v] its IH]; intros pre sl k L H; [reflexivity|]. cbn [map fold_left].
  assert (Hi : (k <= i)%nat) by (apply (H (i, v)); left; reflexivity).
  assert (E : put (pre ++ sl) (i, v) = pre ++ put sl ((i - k)%nat, v)).
  { unfold put. cbn [fst snd]. clear -L Hi. revert k i L Hi. induction pre as [|a pre IHp]; intros k i L Hi.
    - cbn in L. subst k. rewrite Nat.sub_0_r. reflexivity.
    - cbn in L. destruct k; [discriminate|]. destruct i; [lia|]. cbn [app set_nth]. f_equal. apply (IHp k); lia. }
  rewrite E. apply IH; [exact L|]. intros p I. apply H. right. exact I.
Qed.
Lemma items_put : forall O k fs vs its, items_of O k fs vs its ->
  fill (map (fcomp O) fs) (fold_left put (map (fun p : nat * aval => ((fst p - k)%nat, snd p)) (map fst its)) (map (fun _ => None) fs)) = Ok vs.
Proof.
  intros O k fs vs its H. induction H as [k|k f fs vs its A H IH|k f fs v vs bs its G H IH].
  - reflexivity.
  - cbn [map]. change (None :: map (fun _ : field => None) fs) with ([None] ++ map (fun _ : field => @None aval) fs).
    rewrite (put_prefix _ [None] _ 1 eq_refl).
    + rewrite map_map. cbn [app fill].
      replace (map (fun x : nat * aval => ((fst (fst x - k, snd x) - 1)%nat, snd ((fst x - k)%nat, snd x))) (map fst its))
        with (map (fun p : nat * aval => ((fst p - S k)%nat, snd p)) (map fst its)).
      * rewrite IH. cbn [rbind]. change (required (fcomp O f)) with (freq f). rewrite A. reflexivity.
      * apply map_ext. intros [i v]. cbn [fst snd]. f_equal. lia.
    + intros p I. apply in_map_iff in I. destruct I as ([i v] & <- & I). cbn [fst].
      apply in_map_iff in I. destruct I as ([[i' v'] bs] & E & I). inversion E; subst. 
      destruct (items_nth _ _ _ _ _ H _ _ _ I) as (_ & _ & _ & L). lia.
  - cbn [map fold_left fst snd]. rewrite Nat.sub_diag. cbn [put fst snd]. unfold put at 2. cbn [fst snd set_nth].
    change (Some v :: map (fun _ : field => None) fs) with ([Some v] ++ map (fun _ : field => @None aval) fs).
    rewrite (put_prefix _ [Some v] _ 1 eq_refl).
    + rewrite map_map. cbn [app fill].
      replace (map (fun x : nat * aval => ((fst (fst x - k, snd x) - 1)%nat, snd ((fst x - k)%nat, snd x))) (map fst its))
        with (map (fun p : nat * aval => ((fst p - S k)%nat, snd p)) (map fst its)).
      * rewrite IH. reflexivity.
      * apply map_ext. intros [i w]. cbn [fst snd]. f_equal. lia.
    + intros p I. apply in_map_iff in I. destruct I as ([i w] & <- & I). cbn [fst].
      apply in_map_iff in I. destruct I as ([[i' v'] bs'] & E & I). inversion E; subst. 
      destruct (items_nth _ _ _ _ _ H _ _ _ I) as (_ & _ & _ & L). lia.
Qed.

(** Decoding a SET from any arrangement of its items. *)
Lemma dec_set_slots : forall O fs vs (ch : list bytes) ch', slots O fs vs ch -> alts_ok fs = true -> Permutation ch ch' ->
  (let! sl := dec_set (List.length (List.concat ch')) (map (fcomp O) fs) (map (fun _ => None) (map (fcomp O) fs)) (List.concat ch') in
   fill (map (fcomp O) fs) sl) = Ok vs.
Proof.
  intros O fs vs ch ch' SL AL P. destruct (slots_items _ _ _ _ SL 0%nat) as (its & IO & <-).
  apply Permutation_sym, Permutation_map_inv in P. destruct P as (its' & -> & P). apply Permutation_sym in P.
  rewrite (dec_set_items O fs its').
  - cbn [rbind]. rewrite map_map. rewrite <- (put_perm (map fst its) (map fst its')).
    + rewrite <- (items_put _ _ _ _ _ IO). f_equal. f_equal. rewrite <- (map_id (map fst its)) at 1. apply map_ext. intros [i v]. cbn [fst snd].
      f_equal. lia.
    + apply Permutation_map, Permutation_sym, P.
    + exact (items_nodup _ _ _ _ _ IO).
  - exact AL.
  - intros i v bs I. apply (Permutation_in _ P) in I.
    destruct (items_nth _ _ _ _ _ IO _ _ _ I) as (f & N & G & _). rewrite Nat.sub_0_r in N. eauto.
  - assert (NE : forall p, In p its' -> snd p <> []).
    { intros [[i v] bs] I. apply (Permutation_in _ P) in I. destruct (items_nth _ _ _ _ _ IO _ _ _ I) as (f & _ & G & _).
      exact (good_nonempty _ _ _ _ G). }
    clear -NE. induction its' as [|[iv bs] its' IH]; [cbn; lia|]. cbn [map List.concat List.length snd]. rewrite app_length.
    assert (bs <> []) by (apply (NE (iv, bs)); left; reflexivity).
    assert (1 <= List.length bs)%nat by (destruct bs; [congruence|cbn; lia]).
    specialize (IH (fun p I => NE p (or_intror I))). lia.
Qed.

End codec.
