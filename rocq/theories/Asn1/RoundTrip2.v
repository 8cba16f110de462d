(** The round trip: encoding a conforming value of a well-formed type yields octets from
    which the decoder recovers exactly that value. *)
From Coq Require Import List String ZArith NArith Bool Lia Permutation.
From Verif Require Import Asn1.Types Py.Eval Asn1.EqbFacts Asn1.Bytes Asn1.Charset Asn1.Der Asn1.Wf Asn1.RoundTrip.
Import ListNotations.
Open Scope string_scope.
Open Scope N_scope.
Open Scope list_scope.

Section codec.
Context {Cdc : codec}.

(** ** Small facts *)

Lemma list_eqb_N : forall a b, list_eqb N.eqb a b = true -> a = b.
Proof. intros. apply (list_eqb_sound N.eqb Neqb_sound). assumption. Qed.
Lemma list_eqb_NN : forall a b, list_eqb (list_eqb N.eqb) a b = true -> a = b.
Proof. intros. apply (list_eqb_sound (list_eqb N.eqb) list_eqb_N). assumption. Qed.
Lemma res_eqb_eq : forall a b, res_eqb a b = true -> a = b.
Proof. intros [x| | |] [y| | |] H; cbn in H; try discriminate; [|reflexivity]. f_equal. apply list_eqb_N, H. Qed.

Lemma wf_tok : forall t, wf t = true -> tok (tag_map t) = true.
Proof.
  intros [k m|s m fs|s m e|m fs] H; try reflexivity.
  - destruct k; reflexivity.
  - rewrite wf_choice in H. rewrite tag_map_choice. destruct (tags m); [|reflexivity].
    apply andb_true_iff in H. destruct H as [H _]. apply andb_true_iff in H. destruct H as [_ H].
    unfold alts_ok in H. apply andb_true_iff in H. destruct H as [H _]. apply andb_true_iff in H. apply H.
Qed.
Lemma wf_any_direct : forall t, wf t = true -> dflt (tag_map t) = true -> is_any t = true.
Proof.
  intros [k m|s m fs|s m e|m fs] H D; try discriminate.
  - destruct k; try discriminate; reflexivity.
  - exfalso. rewrite wf_choice in H. rewrite tag_map_choice in D. destruct (tags m); [|discriminate].
    apply andb_true_iff in H. destruct H as [H _]. apply andb_true_iff in H. destruct H as [_ H].
    unfold alts_ok in H. apply andb_true_iff in H. destruct H as [_ H]. rewrite D in H. discriminate.
Qed.

Lemma put_header_cases : forall t k c, put_header t k c = Huge \/ exists s, put_header t k c = Ok s.
Proof. intros. unfold put_header. destruct (enc_header t k c); eauto. Qed.
Lemma wrap_cases : forall ts k c, wrap ts k c = Huge \/ exists bs, wrap ts k c = Ok bs.
Proof.
  induction ts as [|t ts IH]; intros k c; cbn [wrap]; [eauto|].
  destruct (put_header_cases t k c) as [->|[s ->]]; cbn [rbind]; [left; reflexivity|apply IH].
Qed.
Lemma finish_wrap : forall ts k c, ts <> [] -> finish ts k false c = wrap ts k c.
Proof. intros [|t ts] k c N; [congruence|]. destruct c; cbn [finish]; [rewrite andb_false_r|]; reflexivity. Qed.

Lemma nonempty_spec : forall {A} (l : list A), nonempty l = true -> l <> [].
Proof. intros A [|] H; discriminate. Qed.
Lemma simple_nonempty : forall ts, simple ts = true -> ts <> [].
Proof. intros [|] H; discriminate. Qed.

(** A single key is never accepted early. *)
Lemma outer_single : forall k ts p q, map (rb k) ts = p ++ q -> p <> [] -> q <> [] -> mem_tags q [ts] = false.
Proof.
  intros k ts p q E P Q. destruct (mem_tags q [ts]) eqn:M; [exfalso|reflexivity].
  cbn in M. rewrite orb_false_r in M. apply tags_eqb_length in M.
  apply (f_equal (@List.length tag)) in E. rewrite map_length, app_length in E. destruct p; [congruence|]. cbn in E. lia.
Qed.
Lemma mem_single : forall k ts, mem_tags (map (rb k) ts) [ts] = true.
Proof. intros. cbn. rewrite rb_eqb. reflexivity. Qed.
Lemma simple_rb : forall ts, simple (map (rb false) ts) = simple ts.
Proof. intros [|t ts]; [reflexivity|]. cbn. rewrite orb_false_r. reflexivity. Qed.
Lemma constructed_rb : forall ts, ts <> [] -> constructed (map (rb true) ts) = true.
Proof. intros [|t ts] N; [congruence|]. cbn. apply orb_true_r. Qed.

Lemma wrap_nonempty : forall ts k c bs, wrap ts k c = Ok bs -> ts <> [] -> bs <> [].
Proof. intros ts k c bs W N E. apply wrap_length in W. subst. destruct ts; [congruence|]. cbn in W. lia. Qed.

(** A tagged item whose contents decode to [v]. *)
Lemma good_wrap : forall O t v k c bs, wrap (tags (meta_of t)) k c = Ok bs -> tags (meta_of t) <> [] ->
  outer_ok k (tags (meta_of t)) = true -> tag_map t = mkT [tags (meta_of t)] false true ->
  (forall tlv, dec_val O t (map (rb k) (tags (meta_of t))) tlv c = Ok v) -> good O t v bs.
Proof.
  intros O t v k c bs W N OK TM D. set (ts := tags (meta_of t)) in *.
  destruct (reads_wrap ts k c bs W N OK) as [tlv R].
  exists (map (rb k) ts), tlv, c. repeat split.
  - exact R.
  - exact (wrap_nonempty _ _ _ _ W N).
  - destruct ts; [congruence|discriminate].
  - unfold accepts. rewrite TM. cbn [keys dflt]. rewrite mem_single. reflexivity.
  - intros _ p q E P Q. rewrite TM. exact (outer_single k ts p q E P Q).
  - apply D.
  - intros _. apply D.
  - rewrite TM. discriminate.
Qed.

(** ** Primitive types *)

Lemma dec_val_prim : forall O k m ts tlv c, dec_val O (TPrim k m) ts tlv c =
  let! v := dec_prim k m ts tlv c in if csat [] (spec m) v then Ok v else Err.
Proof. reflexivity. Qed.

Lemma enc_bits_long : forall l, l <> [] -> exists a b r, enc_bits l = a :: b :: r.
Proof.
  intros [|x l] N; [congruence|]. unfold enc_bits. cbv zeta. cbn [List.length pack]. eauto.
Qed.

Lemma enc_prim_ok : forall k m v, wf (TPrim k m) = true -> conf_prim k m v = true ->
  exists c, enc_prim k v = Ok c.
Proof.
  intros k m v W H. unfold conf_prim in H. apply andb_true_iff in H. destruct H as [_ H].
  destruct k; destruct v; try discriminate; cbn [enc_prim]; eauto.
  - destruct (enc_oid_some _ H) as [s E]. rewrite E. eexists; reflexivity.
  - apply andb_true_iff in H. destruct H as [H1 H2]. pose proof (dec_enc_text (charset_of s) t) as D.
    assert (EN : exists b, enc_text (charset_of s) t = Some b) by (unfold enc_text; rewrite H1; eauto).
    destruct EN as [b EN]. destruct (time_bounds s) as [[lo hi]|]; [|rewrite EN; eexists; reflexivity].
    destruct (norm_time lo hi t) as [t'| | |]; try discriminate. apply list_eqb_N in H2. subst t'. cbn [rbind]. rewrite EN. eexists; reflexivity.
Qed.

Lemma dec_enc_prim : forall k m v c ts tlv, conf_prim k m v = true -> enc_prim k v = Ok c ->
  k <> KAny -> simple ts = true -> dec_prim k m ts tlv c = Ok v.
Proof.
  intros k m v c ts tlv H E NA SI. unfold conf_prim in H. apply andb_true_iff in H. destruct H as [_ H].
  destruct k; destruct v; try discriminate; cbn [enc_prim] in E; cbn [dec_prim];
    try rewrite SI.
  - assert (c = [if b then 255 else 0]) by congruence. subst c. destruct b; reflexivity.
  - assert (c = enc_int z) by congruence. subst c. rewrite dec_enc_int. reflexivity.
  - assert (c = enc_int z) by congruence. subst c. rewrite dec_enc_int. reflexivity.
  - assert (c = enc_bits b) by congruence. subst c. destruct b as [|x b].
    + reflexivity.
    + destruct (enc_bits_long (x :: b) ltac:(discriminate)) as (a & b' & r & EB). rewrite EB, <- EB, dec_enc_bits. reflexivity.
  - congruence.
  - assert (c = []) by congruence. subst c. reflexivity.
  - destruct (enc_oid arcs) as [s|] eqn:EO; [|discriminate]. cbn in E. assert (c = s) by congruence. subst s.
    rewrite (dec_enc_oid _ _ EO). reflexivity.
  - congruence.
  - apply andb_true_iff in H. destruct H as [H1 H2].
    assert (EN : enc_text (charset_of s) t = Some c).
    { destruct (time_bounds s) as [[lo hi]|].
      - destruct (norm_time lo hi t) as [t'| | |]; try discriminate. apply list_eqb_N in H2. subst t'. cbn [rbind] in E.
        destruct (enc_text (charset_of s) t); [cbn in E; congruence|discriminate].
      - destruct (enc_text (charset_of s) t); [cbn in E; congruence|discriminate]. }
    rewrite (dec_enc_text _ _ _ EN). reflexivity.
Qed.

Lemma enc_prim_eq : forall k m v ine opn, conf_prim k m v = true ->
  enc v opn ine (TPrim k m) = let! c := enc_prim k v in finish (tags m) false ine c.
Proof.
  intros k m v ine opn H. unfold conf_prim in H. apply andb_true_iff in H. destruct H as [_ H].
  destruct k; destruct v; try discriminate; reflexivity.
Qed.

Lemma reads_any : forall b g c, dec_header b = Some (g, c, []) -> reads b [g] b c.
Proof.
  intros b g c H accept rest A _. unfold item. pose proof (dec_header_inv _ _ _ _ H) as (h & E & L).
  rewrite app_length. destruct (List.length b + List.length rest)%nat as [|f] eqn:F.
  { rewrite E in F. rewrite app_length in F. lia. }
  cbn [descend]. rewrite (dec_header_ext _ _ _ _ rest H), A. cbn [app].
  rewrite app_length, Nat.add_sub, firstn_app, Nat.sub_diag, firstn_all. cbn [firstn]. rewrite app_nil_r. reflexivity.
Qed.

Lemma round_prim : forall O k m v, wf (TPrim k m) = true -> conf_prim k m v = true ->
  enc v false false (TPrim k m) = Huge \/ exists bs, enc v false false (TPrim k m) = Ok bs /\ good O (TPrim k m) v bs.
Proof.
  intros O k m v W H. rewrite (enc_prim_eq k m v false false H).
  destruct (enc_prim_ok k m v W H) as [c E]. rewrite E. cbn [rbind].
  pose proof H as CS. unfold conf_prim in CS. apply andb_true_iff in CS. destruct CS as [CS _].
  destruct (prim_eqb k KAny) eqn:KA.
  - assert (k = KAny) by (destruct k; try discriminate; reflexivity). subst k.
    cbn [wf] in W. apply Nat.leb_le in W. unfold conf_prim in H. apply andb_true_iff in H. destruct H as [_ H].
    destruct v; try discriminate. cbn [enc_prim] in E. assert (c = b) by congruence. subst c.
    destruct (tags m) as [|t [|]] eqn:TS; [| |cbn in W; lia].
    + right. exists b. split; [reflexivity|].
      apply andb_true_iff in H. destruct H as [_ H]. cbn [nonempty orb] in H. unfold single in H.
      destruct (dec_header b) as [[[g c] [|]]|] eqn:DH; try discriminate. apply negb_true_iff in H.
      pose proof (dec_header_inv _ _ _ _ DH) as (h & EB & L).
      exists [g], b, c. repeat split.
      * exact (reads_any _ _ _ DH).
      * rewrite EB. destruct h; [cbn in L; lia|discriminate].
      * discriminate.
      * unfold accepts. cbn [tag_map dflt]. rewrite H. apply orb_true_r.
      * discriminate.
      * rewrite dec_val_prim. unfold dec_prim. rewrite TS. cbn. rewrite CS. reflexivity.
      * discriminate.
    + rewrite finish_wrap by discriminate. destruct (wrap_cases [t] false b) as [WR|[bs WR]]; rewrite WR; [left; reflexivity|right].
      exists bs. split; [reflexivity|].
      destruct (reads_wrap [t] false b bs WR ltac:(discriminate) eq_refl) as [tlv R].
      exists (map (rb false) [t]), tlv, b. repeat split.
      * exact R.
      * exact (wrap_nonempty _ _ _ _ WR ltac:(discriminate)).
      * discriminate.
      * unfold accepts. cbn [tag_map keys]. rewrite TS, mem_single. reflexivity.
      * discriminate.
      * rewrite dec_val_prim. unfold dec_prim. rewrite TS, rb_eqb. cbn [rbind]. rewrite CS. reflexivity.
      * discriminate.
  - assert (NA : k <> KAny) by (intros ->; discriminate).
    assert (TS : tags m <> [] /\ outer_ok false (tags m) = true /\ simple (tags m) = true).
    { destruct k; cbn [wf] in W; try congruence; apply andb_true_iff in W; destruct W as [W1 W2];
        (split; [|split; [exact W2|auto]]); first [apply nonempty_spec, W1|apply simple_nonempty, W1]. }
    destruct TS as (TN & TO & SI).
    rewrite finish_wrap by exact TN. destruct (wrap_cases (tags m) false c) as [WR|[bs WR]]; rewrite WR; [left; reflexivity|right].
    exists bs. split; [reflexivity|]. apply (good_wrap O (TPrim k m) v false c bs WR TN TO).
    + destruct k; try reflexivity. congruence.
    + intro tlv. rewrite dec_val_prim. cbn [meta_of].
      rewrite (dec_enc_prim k m v c _ tlv H E NA); [cbn [rbind]; rewrite CS; reflexivity|].
      rewrite simple_rb. exact SI.
Qed.

(** ** Conformance, unfolded *)

Definition conf_slot (C : option opened) (fs : list field) (vs : list (option aval)) (f : field) (w : option aval) : bool :=
  match w with
  | None => is_opt (fpres f)
  | Some x =>
      match fpres f, fdef f with
      | Def, Some dv => aval_eqb x dv && negb (is_some (fopen f))
      | _, _ => false
      end
      ||
      ((match entry_for C fs vs f with
        | None => false
        | Some None => conf C (ftype f) x
        | Some (Some test) =>
            all_opened test x && conf C (ftype f) (plain x)
            && res_eqb (enc x true false (ftype f)) (enc (plain x) true false (ftype f))
        end)
       && (negb (is_opt (fpres f)) || res_eqb (enc x (is_some (fopen f)) true (ftype f)) (enc x (is_some (fopen f)) false (ftype f)))
       && match fpres f, fdef f with Def, Some dv => negb (aval_eqb x dv) | _, _ => true end)
  end.
Fixpoint conf_slots (C : option opened) (fs0 : list field) (vs0 : list (option aval)) (fs : list field) (vs : list (option aval)) : bool :=
  match fs, vs with
  | [], [] => true
  | f :: fs', w :: vs' => conf_slot C fs0 vs0 f w && conf_slots C fs0 vs0 fs' vs'
  | _, _ => false
  end.
Lemma conf_seq : forall C isset m fs vs, conf C (TSeq isset m fs) (VSeq vs) =
  (negb (ctruthy (spec m)) || csat (fnames fs) (spec m) (VSeq vs)) && conf_slots C fs vs fs vs.
Proof.
  intros. cbn [conf]. f_equal. generalize fs at 2 4, vs at 2 4.
  intro l. induction l as [|[n p t d o] l IH]; intros [|w ws]; try reflexivity.
  cbn [conf_slots]. rewrite <- IH. reflexivity.
Qed.
Lemma conf_choice : forall C m alts i x, conf C (TChoice m alts) (VAlt i x) =
  match nth_error alts i with Some f => conf C (ftype f) x | None => false end.
Proof.
  intros C m alts i x. cbn [conf]. revert i. induction alts as [|[n p t d o] alts IH]; intros [|i]; try reflexivity. apply IH.
Qed.
Lemma enc_choice_eq : forall m alts i x opn ine, enc (VAlt i x) opn ine (TChoice m alts) =
  match nth_error alts i with Some f => let! c := enc x false ine (ftype f) in finish (tags m) true ine c | None => Unm end.
Proof. intros. cbn [enc]. unfold nth_alt. destruct (nth_error alts i); reflexivity. Qed.

(** Open slots: the octets are encoded the same way inside and outside. *)
Lemma enc_opn : forall C t v ine, openable t = true -> conf C t v = true -> enc v true ine t = enc v false ine t.
Proof.
  intros C t v ine OP H. destruct t as [k m|s m fs|s m [e|]|m fs]; try discriminate.
  - cbn [conf] in H. rewrite !(enc_prim_eq k m v ine _ H). reflexivity.
  - destruct e as [k m'| | |]; try discriminate. destruct k; try discriminate. cbn [conf] in H. destruct v; try discriminate.
    rewrite !enc_of_eq. apply andb_true_iff in H. destruct H as [H _]. apply andb_true_iff in H. destruct H as [_ H].
    assert (E : enc_list true ine (TPrim KAny m') vs = enc_list false ine (TPrim KAny m') vs).
    { unfold enc_list. clear OP. induction vs as [|x vs IH]; [reflexivity|]. cbn [forallb] in H. apply andb_true_iff in H. destruct H as [H1 H2].
      cbn [rmap]. cbn [conf] in H1. rewrite !(enc_prim_eq KAny m' x ine _ H1), (IH H2). reflexivity. }
    rewrite E. reflexivity.
Qed.

(** ** The round trip *)

Section round.
  Variable O : option opener.
  Variable C : option opened.
  (** Opening undoes encoding, where the registry has an entry. *)
  Definition linked : Prop :=
    match O, C with
    | None, None => True
    | Some o, Some c => forall d k,
        match c d k with
        | None => o d k = None
        | Some test => exists g, o d k = Some g /\ forall x b, test x = true -> plain1 x = VOcts b -> g b = Ok x
        end
    | _, _ => False
    end.
  Hypothesis L : linked.

  Definition rt (t : asn1) : Prop := forall v, wf t = true -> conf C t v = true ->
    enc v false false t = Huge \/ exists bs, enc v false false t = Ok bs /\ good O t v bs.

  Lemma round_list : forall t vs, rt t -> wf t = true -> forallb (conf C t) vs = true ->
    enc_list false false t vs = Huge \/ exists ch, enc_list false false t vs = Ok ch /\ Forall2 (good O t) vs ch.
  Proof.
    intros t vs IH W H. unfold enc_list. induction vs as [|v vs IHv]; [right; exists []; split; [reflexivity|constructor]|].
    cbn [forallb] in H. apply andb_true_iff in H. destruct H as [H1 H2]. cbn [rmap].
    destruct (IH v W H1) as [E|(bs & E & G)]; rewrite E; cbn [rbind]; [left; reflexivity|].
    destruct (IHv H2) as [E'|(ch & E' & G')]; rewrite E'; cbn [rbind]; [left; reflexivity|right].
    exists (bs :: ch). split; [reflexivity|constructor; assumption].
  Qed.

  Lemma chunks_length : forall t vs ch, Forall2 (good O t) vs ch -> (List.length ch <= List.length (List.concat ch))%nat.
  Proof.
    intros t vs ch F. induction F as [|v bs vs ch G F IH]; [cbn; lia|]. cbn [List.concat List.length]. rewrite app_length.
    pose proof (good_nonempty _ _ _ _ G). destruct bs; [congruence|]. cbn [List.length]. lia.
  Qed.

  Lemma round_of : forall isset m t, rt t -> rt (TOf isset m (Some t)).
  Proof.
    intros isset m t IH v W H. cbn [wf] in W. apply andb_true_iff in W. destruct W as [W W2].
    apply andb_true_iff in W. destruct W as [W0 W1]. apply nonempty_spec in W0.
    cbn [conf] in H. destruct v; try discriminate. apply andb_true_iff in H. destruct H as [H H3].
    apply andb_true_iff in H. destruct H as [H1 H2]. rewrite enc_of_eq.
    assert (CS : ctruthy (spec m) && negb (csat [] (spec m) (VList vs)) = false).
    { destruct (ctruthy (spec m)); [|reflexivity]. cbn in *. rewrite H1. reflexivity. }
    rewrite CS. destruct (round_list t vs IH W2 H2) as [E|(ch & E & G)]; rewrite E; cbn [rbind]; [left; reflexivity|].
    assert (SO : (if isset return list (list N) then isort octs_le ch else ch) = ch).
    { destruct isset; [|reflexivity]. cbn [negb orb] in H3. unfold enc_list in E. rewrite E in H3. apply list_eqb_NN, H3. }
    rewrite SO, finish_wrap by exact W0.
    destruct (wrap_cases (tags m) true (List.concat ch)) as [WR|[bs WR]]; rewrite WR; [left; reflexivity|right].
    exists bs. split; [reflexivity|]. apply (good_wrap O (TOf isset m (Some t)) (VList vs) true (List.concat ch) bs WR W0 W1 eq_refl).
    intro tlv. change (dec_val O (TOf isset m (Some t)) (map (rb true) (tags (meta_of (TOf isset m (Some t))))) tlv (List.concat ch))
      with (if constructed (map (rb true) (tags m)) then
              let! l := dec_list (List.length (List.concat ch)) (comp_of O t) (List.concat ch) in Ok (VList l) else Err).
    rewrite constructed_rb by exact W0. rewrite (dec_list_good O t vs ch _ (wf_tok t W2) G (chunks_length t vs ch G)). reflexivity.
  Qed.

  Lemma wf_fields_in : forall fs f, forallb wf_field fs = true -> In f fs -> wf (ftype f) = true.
  Proof.
    intros fs f H I. rewrite forallb_forall in H. specialize (H f I). unfold wf_field in H.
    apply andb_true_iff in H. destruct H as [H _]. apply andb_true_iff in H. apply H.
  Qed.

  Lemma round_choice : forall m alts, Forall (fun f => rt (ftype f)) alts -> rt (TChoice m alts).
  Proof.
    intros m alts IH v W H. rewrite wf_choice in W. apply andb_true_iff in W. destruct W as [W WF].
    apply andb_true_iff in W. destruct W as [WO WA].
    destruct v; try discriminate. rewrite conf_choice in H. rewrite enc_choice_eq.
    destruct (nth_error alts i) as [f|] eqn:N; [|discriminate].
    pose proof (nth_error_In _ _ N) as I. rewrite Forall_forall in IH.
    destruct (IH f I v (wf_fields_in _ _ WF I) H) as [E|(c & E & G)]; rewrite E; cbn [rbind]; [left; reflexivity|].
    destruct (tags m) as [|t0 ts0] eqn:TS.
    - right. exists c. split; [reflexivity|].
      pose proof WA as AL. unfold alts_ok in AL. apply andb_true_iff in AL. destruct AL as [AL DF]. apply andb_true_iff in AL. destruct AL as [K NS].
      apply negb_true_iff in DF. pose proof (union_dflt _ _ DF I) as DFf.
      destruct G as (ts & tlv & cc & R & B & TN & A & OU & D & D2 & F). unfold fmap in DFf.
      pose proof (accepts_keys _ _ A DFf) as M.
      exists ts, tlv, cc. rewrite tag_map_choice, TS. 
      assert (DV : forall x, dec_val O (TChoice m alts) ts x cc = Ok (VAlt i v)).
      { intro x. rewrite dec_choice_val. cbv zeta. rewrite TS. destruct ts as [|t1 ts]; [congruence|]. cbn [tags_eqb list_eqb].
        rewrite (choose_nth O alts i f _ K N M). cbn [rbind]. change (c_val (fcomp O f)) with (dec_val O (ftype f)). rewrite (D2 DFf). reflexivity. }
      repeat split; auto.
      + unfold accepts. rewrite (key_of_union alts f ts I M). reflexivity.
      + intros _ p q EQ P Q. exact (no_suffix_outer _ ts p q NS (key_of_union alts f ts I M) EQ P Q).
      + rewrite DF. discriminate.
    - rewrite <- TS in *. assert (TN : tags m <> []) by (rewrite TS; discriminate). rewrite finish_wrap by exact TN.
      destruct (wrap_cases (tags m) true c) as [WR|[bs WR]]; rewrite WR; [left; reflexivity|right].
      exists bs. split; [reflexivity|]. apply (good_wrap O (TChoice m alts) (VAlt i v) true c bs WR TN WO).
      + rewrite tag_map_choice, TS. cbn [meta_of]. rewrite TS. reflexivity.
      + intro tlv. rewrite dec_choice_val. cbv zeta. cbn [meta_of]. rewrite rb_eqb.
        pose proof (dec_run_alts O alts i f v c [] WA N G) as D. rewrite app_nil_r in D. rewrite D. reflexivity.
  Qed.

  (** The components as decoded, before open types are looked at. *)
  Definition pre_slot (fs : list field) (vs : list (option aval)) (f : field) (w : option aval) : option aval :=
    match w with
    | Some x => match entry_for C fs vs f with Some (Some _) => Some (plain x) | _ => Some x end
    | None => None
    end.
  Fixpoint pre_slots (fs0 : list field) (vs0 : list (option aval)) (fs : list field) (vs : list (option aval)) : list (option aval) :=
    match fs, vs with
    | f :: fs', w :: vs' => pre_slot fs0 vs0 f w :: pre_slots fs0 vs0 fs' vs'
    | _, _ => []
    end.

  Lemma entry_open : forall fs vs f test, entry_for C fs vs f = Some (Some test) -> is_some (fopen f) = true.
  Proof. intros fs vs f test H. unfold entry_for in H. destruct (fopen f) as [[n d]|]; [reflexivity|discriminate]. Qed.

  (** One present component. *)
  Lemma round_slot : forall fs0 vs0 f x, rt (ftype f) -> wf_field f = true -> conf_slot C fs0 vs0 f (Some x) = true ->
    (exists dv, fpres f = Def /\ fdef f = Some dv /\ x = dv /\ fopen f = None) \/
    ((forall dv, fpres f = Def -> fdef f = Some dv -> aval_eqb x dv = false) /\
     exists y, pre_slot fs0 vs0 f (Some x) = Some y /\ conf C (ftype f) y = true /\
     (enc x (is_some (fopen f)) (is_opt (fpres f)) (ftype f) = Huge \/
      exists bs, enc x (is_some (fopen f)) (is_opt (fpres f)) (ftype f) = Ok bs /\ good O (ftype f) y bs)).
  Proof.
    intros fs0 vs0 f x IH WF H. unfold wf_field in WF. apply andb_true_iff in WF. destruct WF as [WF OP].
    apply andb_true_iff in WF. destruct WF as [WF _].
    unfold conf_slot in H. apply orb_true_iff in H. destruct H as [H|H].
    - left. destruct (fpres f); try discriminate. destruct (fdef f) as [dv|]; try discriminate.
      apply andb_true_iff in H. destruct H as [A B]. apply aval_eqb_sound in A. exists dv. repeat split; auto.
      destruct (fopen f); [discriminate|reflexivity].
    - right. apply andb_true_iff in H. destruct H as [H DE]. apply andb_true_iff in H. destruct H as [H OE]. split.
      { intros dv P Q. rewrite P, Q in DE. apply negb_true_iff, DE. }
      assert (EO : enc x (is_some (fopen f)) (is_opt (fpres f)) (ftype f) = enc x (is_some (fopen f)) false (ftype f)).
      { destruct (is_opt (fpres f)); [|reflexivity]. cbn [negb orb] in OE. apply res_eqb_eq, OE. }
      rewrite EO. unfold pre_slot. destruct (entry_for C fs0 vs0 f) as [[test|]|] eqn:EN; [| |discriminate].
      + pose proof (entry_open _ _ _ _ EN) as FO. destruct (fopen f) as [od|]; [|discriminate]. cbn [is_some] in *.
        apply andb_true_iff in H. destruct H as [H RE]. apply andb_true_iff in H. destruct H as [_ CP].
        apply res_eqb_eq in RE. exists (plain x). split; [reflexivity|]. split; [exact CP|].
        rewrite RE, (enc_opn C _ _ false OP CP). exact (IH _ WF CP).
      + exists x. split; [reflexivity|]. split; [exact H|].
        assert (EE : enc x (is_some (fopen f)) false (ftype f) = enc x false false (ftype f)).
        { destruct (fopen f) as [od|]; [|reflexivity]. cbn [is_some]. exact (enc_opn C _ _ false OP H). }
        rewrite EE. exact (IH _ WF H).
  Qed.

  Lemma round_fields : forall fs0 vs0 fs vs, Forall (fun f => rt (ftype f)) fs -> forallb wf_field fs = true ->
    conf_slots C fs0 vs0 fs vs = true ->
    enc_fields vs fs = Huge \/ exists cs, enc_fields vs fs = Ok cs /\ slots O fs (pre_slots fs0 vs0 fs vs) (map snd cs).
  Proof.
    intros fs0 vs0 fs. induction fs as [|f fs IH]; intros vs FI WF H.
    - destruct vs; [|discriminate]. right. exists []. split; [reflexivity|constructor].
    - destruct vs as [|w vs]; [discriminate|]. cbn [conf_slots] in H. apply andb_true_iff in H. destruct H as [H1 H2].
      inversion FI as [|? ? F1 F2]; subst. cbn [forallb] in WF. apply andb_true_iff in WF. destruct WF as [W1 W2].
      destruct f as [n p t d o]. cbn [enc_fields]. fold enc_fields.
      destruct (IH vs F2 W2 H2) as [E|(cs & E & SL)]; rewrite E; cbn [rbind]; [left; reflexivity|].
      cbn [pre_slots]. destruct w as [x|].
      + destruct (round_slot fs0 vs0 _ x F1 W1 H1) as [(dv & P & D & -> & OO)|(ND & y & PS & CY & EC)]; cbn [fpres fdef ftype fopen] in *.
        * subst p d o. rewrite (proj2 eqb_refl dv). right. exists cs. split; [reflexivity|].
          assert (PSx : pre_slot fs0 vs0 (Fld n Def t (Some dv) None) (Some dv) = absent (fcomp O (Fld n Def t (Some dv) None))) by reflexivity.
          rewrite PSx. constructor; [reflexivity|exact SL].
        * rewrite PS.
          assert (GO : (let! c := enc x (is_some o) (is_opt p) t in Ok ((sort_key t (Some x), c) :: cs)) = Huge \/
            exists cs', (let! c := enc x (is_some o) (is_opt p) t in Ok ((sort_key t (Some x), c) :: cs)) = Ok cs' /\
              slots O (Fld n p t d o :: fs) (Some y :: pre_slots fs0 vs0 fs vs) (map snd cs')).
          { destruct EC as [EC|(bs & EC & G)]; rewrite EC; cbn [rbind]; [left; reflexivity|right].
            exists ((sort_key t (Some x), bs) :: cs). split; [reflexivity|]. cbn [map snd]. constructor; [exact G|exact SL]. }
          destruct p; [exact GO|exact GO|].
          unfold wf_field in W1. cbn [fpres fdef] in W1. destruct d as [dv|]; [|rewrite andb_false_r in W1; discriminate].
          rewrite (ND dv eq_refl eq_refl). exact GO.
      + cbn [conf_slot fpres] in H1. destruct p; try discriminate. right. exists cs. split; [reflexivity|].
        cbn [pre_slot]. change None with (absent (fcomp O (Fld n Opt t d o))). constructor; [reflexivity|exact SL].
  Qed.

  (** The governor reads the same before and after opening. *)
  Lemma gov_pre : forall fs0 vs0 f x, wf_field f = true -> conf_slot C fs0 vs0 f (Some x) = true ->
    gov_key (pre_slot fs0 vs0 f (Some x)) = gov_key (Some x).
  Proof.
    intros fs0 vs0 f x WF H. unfold pre_slot. unfold conf_slot in H. destruct (entry_for C fs0 vs0 f) as [[test|]|] eqn:EN; try reflexivity.
    pose proof (entry_open _ _ _ _ EN) as FO. unfold wf_field in WF. destruct (fopen f) as [od|]; [|discriminate].
    apply andb_true_iff in WF. destruct WF as [_ OP]. cbn [is_some negb] in H. apply orb_true_iff in H. destruct H as [H|H].
    { destruct (fpres f); try discriminate. destruct (fdef f); try discriminate. rewrite andb_false_r in H. discriminate. }
    apply andb_true_iff in H. destruct H as [H _]. apply andb_true_iff in H. destruct H as [H _].
    apply andb_true_iff in H. destruct H as [H _]. apply andb_true_iff in H. destruct H as [_ CP].
    destruct x; try reflexivity. destruct v as [v|]; [|reflexivity]. cbn [plain plain1].
    destruct (enc v false false t); reflexivity.
  Qed.
  Lemma gov_pre_slots : forall fs0 vs0 n fs vs, forallb wf_field fs = true -> conf_slots C fs0 vs0 fs vs = true ->
    gov_key (slot_of fs (pre_slots fs0 vs0 fs vs) n) = gov_key (slot_of fs vs n).
  Proof.
    intros fs0 vs0 n fs. induction fs as [|f fs IH]; intros [|w vs] WF H; try reflexivity; try discriminate.
    cbn [conf_slots forallb] in *. apply andb_true_iff in H, WF. destruct H as [H1 H2], WF as [W1 W2].
    cbn [pre_slots slot_of]. destruct (String.eqb (fname f) n); [|apply IH; assumption].
    destruct w as [x|]; [|reflexivity]. exact (gov_pre fs0 vs0 f x W1 H1).
  Qed.

  Lemma no_open_pre : forall fs0 vs0 fs vs, (C = None \/ existsb (fun f => is_some (fopen f)) fs = false) ->
    List.length fs = List.length vs -> pre_slots fs0 vs0 fs vs = vs.
  Proof.
    intros fs0 vs0 fs. induction fs as [|f fs IH]; intros [|w vs] H LE; try reflexivity; try discriminate.
    cbn [pre_slots]. f_equal.
    - destruct w as [x|]; [|reflexivity]. unfold pre_slot, entry_for. destruct H as [->|H].
      + destruct (fopen f) as [[]|]; reflexivity.
      + cbn [existsb] in H. apply orb_false_iff in H. destruct H as [H _]. destruct (fopen f); [discriminate|reflexivity].
    - apply IH; [|cbn in LE; lia]. destruct H as [H|H]; [left; exact H|right]. cbn [existsb] in H. apply orb_false_iff in H. apply H.
  Qed.
  Lemma conf_slots_length : forall fs0 vs0 fs vs, conf_slots C fs0 vs0 fs vs = true -> List.length fs = List.length vs.
  Proof.
    intros fs0 vs0 fs. induction fs as [|f fs IH]; intros [|w vs] H; try reflexivity; try discriminate.
    cbn [conf_slots] in H. apply andb_true_iff in H. cbn. f_equal. apply IH, H.
  Qed.

  Lemma open_all : forall Op c fs0 vs0 fs vs, O = Some Op -> C = Some c -> forallb wf_field fs0 = true -> conf_slots C fs0 vs0 fs0 vs0 = true ->
    forallb wf_field fs = true -> conf_slots C fs0 vs0 fs vs = true ->
    open_slots Op fs0 (pre_slots fs0 vs0 fs0 vs0) fs (pre_slots fs0 vs0 fs vs) = Ok vs.
  Proof.
    intros Op c fs0 vs0 fs vs EO EC WF0 H0. revert vs. induction fs as [|f fs IH]; intros [|w vs] WF H; try reflexivity; try discriminate.
    cbn [conf_slots forallb] in *. apply andb_true_iff in H, WF. destruct H as [H1 H2], WF as [W1 W2].
    cbn [pre_slots open_slots]. 
    assert (OS : open_slot Op fs0 (pre_slots fs0 vs0 fs0 vs0) f (pre_slot fs0 vs0 f w) = Ok w).
    { unfold open_slot. destruct (fopen f) as [[n d]|] eqn:FO.
      - destruct w as [x|]; [|reflexivity].
        unfold conf_slot in H1. rewrite FO in H1. cbn [is_some negb] in H1. apply orb_true_iff in H1. destruct H1 as [H1|H1].
        { destruct (fpres f); try discriminate. destruct (fdef f); try discriminate. rewrite andb_false_r in H1. discriminate. }
        apply andb_true_iff in H1. destruct H1 as [H1 _]. apply andb_true_iff in H1. destruct H1 as [H1 _].
        unfold pre_slot. unfold entry_for in *. rewrite FO, EC in *. rewrite (gov_pre_slots fs0 vs0 n fs0 vs0 WF0); [|rewrite <- EC in H0; congruence].
        destruct (gov_key (slot_of fs0 vs0 n)) as [k|] eqn:GK; [|discriminate].
        pose proof L as LK. unfold linked in LK. rewrite EO, EC in LK. specialize (LK d k).
        destruct (c d k) as [test|] eqn:CD.
        + destruct LK as (g & OD & G). rewrite OD.
          apply andb_true_iff in H1. destruct H1 as [H1 _]. apply andb_true_iff in H1. destruct H1 as [AO CP].
          unfold wf_field in W1. rewrite FO in W1. apply andb_true_iff in W1. destruct W1 as [_ OP].
          assert (ONE : forall y k1 m, k1 = KAny \/ k1 = KOcts -> conf (Some c) (TPrim k1 m) (plain1 y) = true -> test y = true -> reopen g (plain1 y) = Ok y).
          { intros y k1 m KK CY TY. cbn [conf] in CY. unfold conf_prim in CY. apply andb_true_iff in CY. destruct CY as [_ CY].
            destruct (plain1 y) as [| | |b| | | | | | |] eqn:PY; try (destruct KK as [-> | ->]; discriminate). exact (G y b TY PY). }
          destruct (ftype f) as [kk m|s m fs1|s m [e|]|m fs1]; try discriminate.
          * assert (KK : kk = KAny \/ kk = KOcts) by (destruct kk; try discriminate; auto).
            destruct x as [b|z|bb|b| |aa|tt|vv|l|i v|t v]; cbn [all_opened plain] in *;
              try (pose proof (ONE _ kk m KK CP AO) as R; cbn [plain1 reopen] in R; discriminate R).
            -- pose proof (ONE (VOcts b) kk m KK CP AO) as R. cbn [plain1] in *. rewrite R. reflexivity.
            -- cbn [conf] in CP. unfold conf_prim in CP. destruct KK as [-> | ->]; rewrite andb_false_r in CP; discriminate.
            -- pose proof (ONE (VTyped t v) kk m KK CP AO) as R. destruct (plain1 (VTyped t v)); try discriminate; rewrite R; reflexivity.
          * destruct e as [kk m'| | |]; try discriminate. destruct kk; try discriminate.
            cbn [conf] in CP. destruct x as [| | | | | | | |l| |t v]; cbn [plain plain1] in CP; try discriminate.
            -- cbn [plain all_opened] in *. apply andb_true_iff in CP. destruct CP as [CP _]. apply andb_true_iff in CP. destruct CP as [_ CP].
               assert (RM : rmap (reopen g) (map plain1 l) = Ok l).
               { revert CP AO. generalize l at 1 2 3 4. intro l1. induction l1 as [|y l1 IHl]; intros CP AO; [reflexivity|].
                 cbn [map forallb rmap] in *. apply andb_true_iff in CP, AO. destruct CP as [C1 C2], AO as [A1 A2].
                 rewrite (ONE y KAny m' (or_introl eq_refl) C1 A1). cbn [rbind]. rewrite (IHl C2 A2). reflexivity. }
               rewrite RM. reflexivity.
            -- exfalso. destruct v as [v|]; [|discriminate]. destruct (enc v false false t); discriminate.
        + rewrite LK. reflexivity.
      - unfold pre_slot, entry_for. rewrite FO. destruct w; reflexivity. }
    rewrite OS. cbn [rbind]. rewrite (IH vs W2 H2). reflexivity.
  Qed.

  Lemma round_seq : forall isset m fs, Forall (fun f => rt (ftype f)) fs -> rt (TSeq isset m fs).
  Proof.
    intros isset m fs IH v W H. rewrite wf_seq in W. apply andb_true_iff in W. destruct W as [W WF].
    apply andb_true_iff in W. destruct W as [W WR]. apply andb_true_iff in W. destruct W as [W0 W1]. apply nonempty_spec in W0.
    destruct v; try discriminate. rewrite conf_seq in H. apply andb_true_iff in H. destruct H as [H1 H2].
    rewrite enc_seq_eq.
    assert (CS : ctruthy (spec m) && negb (csat (fnames fs) (spec m) (VSeq vs)) = false).
    { destruct (ctruthy (spec m)); [|reflexivity]. cbn in *. rewrite H1. reflexivity. }
    rewrite CS. destruct (round_fields fs vs fs vs IH WF H2) as [E|(cs & E & SL)]; rewrite E; cbn [rbind]; [left; reflexivity|].
    set (ch := if isset then isort key_le cs else cs). rewrite finish_wrap by exact W0.
    destruct (wrap_cases (tags m) true (List.concat (map snd ch))) as [WP|[bs WP]]; rewrite WP; [left; reflexivity|right].
    exists bs. split; [reflexivity|].
    apply (good_wrap O (TSeq isset m fs) (VSeq vs) true (List.concat (map snd ch)) bs WP W0 W1 eq_refl).
    intro tlv. rewrite dec_seq_val. cbn [meta_of]. rewrite constructed_rb by exact W0.
    set (c := List.concat (map snd ch)).
    assert (OK : forall f, In f fs -> tok (fmap f) = true /\ any_direct f).
    { intros f I. pose proof (wf_fields_in _ _ WF I) as WT. split; [exact (wf_tok _ WT)|exact (wf_any_direct _ WT)]. }
    assert (DE : (if isset then let! sl := dec_set (List.length c) (map (fcomp O) fs) (map (fun _ => None) (map (fcomp O) fs)) c in
                                fill (map (fcomp O) fs) sl
                  else dec_seq (List.length (map (fcomp O) fs)) (map (fcomp O) fs) c) = Ok (pre_slots fs vs fs vs)).
    { unfold c, ch. destruct isset.
      - apply (dec_set_slots O fs _ (map snd cs)); [exact SL|exact WR|]. apply Permutation_map, isort_perm.
      - rewrite map_length. exact (dec_seq_slots _ O fs _ _ _ (le_n _) SL WR OK (le_n _)). }
    assert (FIN : (let cs0 := map (fcomp O) fs in
      let! vs0 := if isset then let! sl := dec_set (List.length c) cs0 (map (fun _ => None) cs0) c in fill cs0 sl
                 else dec_seq (List.length cs0) cs0 c in
      if existsb (fun f => is_some (fopen f)) fs
      then match O with None => Ok (VSeq vs0) | Some Op => let! vs' := open_slots Op fs vs0 fs vs0 in Ok (VSeq vs') end
      else if ctruthy (spec m) && negb (csat (fnames fs) (spec m) (VSeq vs0)) then Err else Ok (VSeq vs0)) = Ok (VSeq vs)).
    { cbv zeta. rewrite DE. cbn [rbind]. pose proof (conf_slots_length _ _ _ _ H2) as LE.
      destruct (existsb (fun f => is_some (fopen f)) fs) eqn:EX.
      - pose proof L as LK. unfold linked in LK. destruct O as [Op|] eqn:EO; destruct C as [cc|] eqn:EC; try contradiction.
        + rewrite <- EC in *. rewrite <- EO in *. rewrite (open_all Op cc fs vs fs vs EO EC WF H2 WF H2). reflexivity.
        + rewrite <- EC in *. rewrite (no_open_pre fs vs fs vs (or_introl EC) LE). reflexivity.
      - rewrite (no_open_pre fs vs fs vs (or_intror EX) LE). rewrite CS. reflexivity. }
    destruct fs as [|f fs']; [|exact FIN].
    assert (EC : c = []).
    { destruct vs; [|discriminate]. cbn in E. assert (cs = []) by congruence. subst cs. unfold c, ch. destruct isset; reflexivity. }
    rewrite EC in *. exact FIN.
  Qed.

  Theorem round_trip_all : forall t, rt t.
  Proof.
    apply asn1_ind2.
    - intros k m v W H. exact (round_prim O k m v W H).
    - exact round_seq.
    - exact round_of.
    - intros s m v W. cbn [wf] in W. rewrite andb_false_r in W. discriminate.
    - exact round_choice.
  Qed.

  Corollary round_trip : forall t v bs rest, wf t = true -> conf C t v = true -> encode t v = Ok bs ->
    decode_with O t (bs ++ rest) = Ok (v, rest).
  Proof.
    intros t v bs rest W H E. destruct (round_trip_all t v W H) as [X|(bs' & E' & G)].
    - unfold encode in E. congruence.
    - unfold encode in E. assert (bs' = bs) by congruence. subst bs'.
      exact (dec_one_good O (Fld "" Req t None None) v bs rest (wf_tok t W) G).
  Qed.
  Corollary encode_total : forall t v, wf t = true -> conf C t v = true -> encode t v = Huge \/ exists bs, encode t v = Ok bs.
  Proof. intros t v W H. destruct (round_trip_all t v W H) as [X|(bs & E & _)]; [left; exact X|right; exists bs; exact E]. Qed.
End round.

End codec.
