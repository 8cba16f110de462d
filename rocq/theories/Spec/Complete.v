(** Octets that may be taken for an encoding, in the sense of Spec/Ber.v, are accepted by pyasn1's
    decoder, and give that value: the converse of Spec/Accepts.v. *)
From Coq Require Import List String ZArith NArith Bool Lia.
From Verif Require Import Asn1.Types Py.Eval Asn1.EqbFacts Asn1.Bytes Asn1.Charset Asn1.Der Asn1.Wf Asn1.RoundTrip Asn1.RoundTrip2 Asn1.Total
  Spec.X680 Spec.X690 Spec.Octets Spec.Agree Spec.Conform Spec.Looser Spec.Leaves Spec.Reads Spec.Ber Spec.Accepts.
Import ListNotations.
Open Scope string_scope.
Open Scope list_scope.
Open Scope N_scope.

Section codec.
Context {Cdc : codec}.

(** ** Headers *)

Lemma tag_read : forall c k n i r, identifies c k n i -> dec_tag (i ++ r) = Some (mkTag c k n, r).
Proof.
  assert (FO : forall c k id, id < 32 -> let b := class_bits c + (if k : bool then 32 else 0) + id in
    class_of (b / 64) = c /\ negb ((b / 32) mod 2 =? 0) = k /\ b mod 32 = id).
  { intros c k id L b. assert (E : b = 64 * class_num c + 32 * bit k + id) by (subst b; destruct c, k; cbn [class_bits class_num bit]; lia).
    rewrite E. exact (first_octet c k id L). }
  intros c k n i r H. inversion H as [L|ds N F V]; subst.
  - destruct (FO c k n ltac:(lia)) as (A & B & D). cbn [app dec_tag]. cbv zeta. rewrite A, B, D. destruct (N.eqb_spec n 31); [lia|reflexivity].
  - destruct (FO c k 31 ltac:(lia)) as (A & B & D). cbn [app dec_tag]. cbv zeta. rewrite A, B, D. cbn [N.eqb Pos.eqb].
    rewrite <- cont_continued, (dec_num7_cont ds 0 r N F). reflexivity.
Qed.
Lemma len_read : forall n l r, measures n l -> dec_len (l ++ r) = Some (n, r).
Proof.
  intros n l r H. inversion H as [L|ds N L V]; subst.
  - cbn [app dec_len]. destruct (N.ltb_spec n 128); [reflexivity|lia].
  - rewrite (dec_len_long _ ds r eq_refl); [reflexivity| |lia]. destruct ds; [congruence|cbn; lia].
Qed.
Lemma item_read : forall t k c b r, an_item t k c b -> dec_header (b ++ r) = Some (mkTag (fst t) k (snd t), c, r).
Proof.
  intros [cl n] k c b r (i & l & I & L & ->). cbn [fst snd] in *. unfold dec_header. rewrite <- !app_assoc.
  rewrite (tag_read _ _ _ _ _ I), (len_read _ _ _ L), take_app. reflexivity.
Qed.
Lemma header_read : forall g c b r, header g c b -> dec_header (b ++ r) = Some (g, c, r).
Proof. intros [cl k n] c b r H. exact (item_read _ _ _ _ r H). Qed.
Lemma item_octets : forall t k c b, an_item t k c b -> octets b -> octets c.
Proof. intros t k c b (i & l & _ & _ & ->) O. apply octets_app in O. destruct O as [_ O]. apply octets_app in O. exact (proj2 O). Qed.
Lemma header_size : forall g c b, header g c b -> (2 + List.length c <= List.length b)%nat.
Proof.
  intros g c b H. pose proof (header_read g c b [] H) as D. apply dec_header_inv in D. destruct D as (h & E & L).
  rewrite !app_nil_r in E. subst b. rewrite app_length. lia.
Qed.

(** The decoder finds its way to the contents. *)
Definition open_tag (g : tag) : bool := negb (tclass_eqb (tcls g) Universal).
Lemma opens_size : forall ts c b, opens ts c b -> (List.length c + List.length ts < List.length b)%nat.
Proof.
  intros ts c b O. induction O as [g c b H|g c inner junk ts b O IH C H]; pose proof (header_size _ _ _ H) as L; cbn [List.length]; [lia|].
  rewrite app_length in IH. lia.
Qed.
Lemma descend_through : forall ts c b, opens ts c b -> constructed ts = true -> forallb open_tag ts = true -> forall fuel accept acc rest,
  (forall p q, ts = p ++ q -> q <> [] -> accept (q ++ acc) = false) ->
  descend (List.length ts + fuel) accept acc (b ++ rest) = let! (p, _) := descend fuel accept (ts ++ acc) c in Ok (p, rest).
Proof.
  intros ts c b O. induction O as [g c b H|g c inner junk ts b O IH C H]; intros CT OT fuel accept acc rest NA; cbn [constructed] in CT.
  - cbn [List.length Nat.add descend]. rewrite (header_read _ _ _ rest H). cbv zeta.
    pose proof (NA [] [g] eq_refl ltac:(discriminate)) as N1. cbn [app] in N1. rewrite N1. clear N1.
    cbn [forallb] in OT. rewrite andb_true_r in OT. unfold open_tag in OT. rewrite CT, OT. reflexivity.
  - cbn [forallb] in OT. apply andb_prop in OT. destruct OT as [OT1 OT2].
    replace (List.length (g :: ts) + fuel)%nat with (List.length ts + S fuel)%nat by (cbn [List.length]; lia).
    rewrite (IH C OT2); [|intros p q E Q; apply (NA (g :: p) q); [rewrite E; reflexivity|exact Q]].
    cbn [descend]. rewrite (header_read _ _ _ junk H). cbv zeta.
    pose proof (NA [] (g :: ts) eq_refl ltac:(discriminate)) as N1. cbn [app] in N1 |- *. rewrite N1. clear N1.
    unfold open_tag in OT1. rewrite CT, OT1. cbn [andb]. destruct (descend fuel accept (g :: ts ++ acc) c) as [[p ?]| | |]; reflexivity.
Qed.
Lemma opens_reads : forall ts c b, opens ts c b -> forallb open_tag (tl ts) = true -> exists tlv, reads b ts tlv c.
Proof.
  intros ts c b O OT. pose proof (opens_size _ _ _ O) as SZ. inversion O as [g c' b' H|g c' inner junk ts' b' O' C H]; subst.
  - exists b. exact (reads_any b g c ltac:(rewrite <- (app_nil_r b); exact (header_read _ _ _ [] H))).
  - exists inner. intros accept rest A NA. cbn [tl] in OT. unfold item.
    pose proof (opens_size _ _ _ O') as SZ'. cbn [List.length] in SZ.
    replace (List.length (b ++ rest)) with (List.length ts' + S (List.length (b ++ rest) - S (List.length ts')))%nat by (rewrite app_length; lia).
    rewrite (descend_through _ _ _ O' C OT).
    + rewrite app_nil_r. cbn [descend]. rewrite (header_read _ _ _ junk H). cbv zeta. rewrite A. cbn [rbind].
      rewrite app_length, Nat.add_sub, firstn_app, Nat.sub_diag, firstn_all. cbn [firstn]. rewrite app_nil_r. reflexivity.
    + intros p q E Q. rewrite app_nil_r. apply (NA (g :: p) q); [rewrite E; reflexivity|discriminate|exact Q].
Qed.
Lemma wraps_opens : forall acc g c inner b, header g c inner -> wraps false acc inner b -> exists ts, opens (g :: ts) c b /\ all2 tag_is acc ts = true.
Proof.
  induction acc as [|a acc IH]; intros g c inner b H W.
  - cbn in W. subst. exists []. split; [apply opens_one, H|reflexivity].
  - destruct W as (k & e & junk & I & [->|K] & W); [|discriminate K].
    destruct (IH (mkTag (fst a) true (snd a)) (inner ++ junk) e b) as (ts & O & A).
    + unfold header. cbn [tcls tcons tnum]. destruct a. exact I.
    + exact W.
    + exists (mkTag (fst a) true (snd a) :: ts). split; [exact (opens_in g c inner junk _ b O eq_refl H)|].
      cbn [all2]. rewrite A. unfold tag_is. cbn [tcls tnum]. rewrite N.eqb_refl. destruct (fst a); reflexivity.
Qed.

(** ** Contents *)

Lemma int_read : forall c z, octets c -> denotes (PInt []) (VInt z) c -> dec_int c = z.
Proof.
  intros c z O [A [B1 B2]]. destruct (int_denotes c O) as [D [E1 E2]]. set (m := (256 ^ Z.of_nat (List.length c))%Z) in *.
  assert (P : (0 < m)%Z) by (apply Z.pow_pos_nonneg; lia). clearbody m. rewrite <- D in A.
  pose proof (Z.div_mod z m ltac:(lia)) as Q1. pose proof (Z.div_mod (dec_int c) m ltac:(lia)) as Q2. rewrite A in Q1.
  generalize dependent (z / m)%Z. generalize dependent (dec_int c / m)%Z. intros q' Q2 q Q1.
  assert (q = q') by nia. subst. lia.
Qed.
Lemma text_read : forall k t, forallb (character_ok k) t = true -> dec_text (charset_of k) (text_octets k t) = Some t.
Proof.
  intros k t F. rewrite forallb_forall in F.
  assert (EN : forall x, In x t -> encodable (charset_of k) x = true).
  { intros x I. specialize (F x I). destruct k; cbn [charset_of encodable character_ok] in *;
      try (apply N.leb_le in F; apply N.ltb_lt; lia); apply unicode_scalar in F; apply F. }
  assert (E : text_octets k t = flat_map (enc_char (charset_of k)) t).
  { assert (G : forall g, (forall x, In x t -> g x = enc_char (charset_of k) x) -> flat_map g t = flat_map (enc_char (charset_of k)) t)
      by (intros g E; apply flat_map_ext_in, E).
    destruct k; unfold text_octets, characters; apply G; intros x I; pose proof (EN x I) as E; cbn [charset_of encodable enc_char] in *; try reflexivity;
      apply scalar_unicode in E; destruct E as [_ E].
    - unfold utf8. destruct (N.ltb_spec x 128), (N.leb_spec x 127); try lia; [reflexivity|].
      destruct (N.ltb_spec x 2048), (N.leb_spec x 2047); try lia; [reflexivity|].
      destruct (N.ltb_spec x 65536), (N.leb_spec x 65535); try lia; reflexivity.
    - rewrite be4 by lia. reflexivity.
    - unfold utf16. destruct (N.ltb_spec x 65536), (N.leb_spec x 65535); try lia; [rewrite be2 by lia; reflexivity|]. cbv zeta.
      pose proof (N.mod_lt (x - 65536) 1024 ltac:(lia)). assert ((x - 65536) / 1024 < 1024) by (apply N.div_lt_upper_bound; lia).
      rewrite !be2 by lia. reflexivity. }
  rewrite E. unfold dec_text. apply dec_enc_text_f; [apply forallb_forall, EN|apply le_n].
Qed.
Lemma bits_read : forall e l c, denotes (PBits e) (VBits l) c -> dec_bits c = Some l.
Proof.
  intros e l c (u & o & unused & -> & U & LU & E). cbn [dec_bits]. destruct (N.ltb_spec 7 u); [lia|]. cbv zeta.
  change (flat_map byte_bits o) with (flat_map bits_of o). rewrite E.
  destruct (N.ltb_spec (N.of_nat (List.length (l ++ unused))) u) as [L|L]; [rewrite app_length in L; lia|].
  replace (List.length (l ++ unused) - N.to_nat u)%nat with (List.length l) by (rewrite app_length; lia).
  rewrite firstn_app, Nat.sub_diag, firstn_all. cbn [firstn]. rewrite app_nil_r. reflexivity.
Qed.
Lemma segments_read : forall n xs es, Forall2 (segment n) xs es -> forall f, (List.length (List.concat es) <= f)%nat -> segments f n (List.concat es) = Ok xs.
Proof.
  intros n xs es F. induction F as [|x e xs es (t & k & IT & TG) F IH]; intros f L; [destruct f; reflexivity|].
  pose proof (item_read t k x e (List.concat es) IT) as D. pose proof (header_size (mkTag (fst t) k (snd t)) x e ltac:(destruct t; exact IT)) as SZ.
  cbn [List.concat] in *. rewrite app_length in L. destruct f as [|f]; [lia|]. specialize (IH f ltac:(lia)).
  destruct (e ++ List.concat es) as [|b s] eqn:E; [destruct e; [cbn in SZ; lia|discriminate E]|]. cbn [segments]. rewrite D. cbn [tcons tcls].
  assert (G : tags_eqb [mkTag (fst t) k (snd t)] [mkTag Universal false n] || k && negb (tclass_eqb (fst t) Universal) = true).
  { destruct TG as [->|[-> NU]]; cbn [fst snd].
    - unfold tags_eqb. cbn [list_eqb]. unfold tag_eqb. cbn [tcls tnum tclass_eqb]. rewrite N.eqb_refl. reflexivity.
    - destruct (fst t); [contradiction|..]; cbn [tclass_eqb negb andb]; apply orb_true_r. }
  rewrite G, IH. reflexivity.
Qed.
Lemma joined_read : forall e xs ls, Forall2 (fun x l => denotes (PBits e) (VBits l) x) xs ls -> joined_bits xs = Ok (List.concat ls).
Proof.
  intros e xs ls F. induction F as [|x l xs ls H F IH]; [reflexivity|]. cbn [joined_bits List.concat]. rewrite (bits_read e l x H). cbn [of_opt rbind]. rewrite IH. reflexivity.
Qed.
Lemma prim_read : forall p k m g ts tlv c v, octets c -> same_prim p k = true -> (if tcons g then denotes_parted p v c else denotes p v c) ->
  dec_prim k m (g :: ts) tlv c = Ok v.
Proof.
  intros p k m g ts tlv c v O S H.
  destruct p, k; try discriminate S; cbn [dec_prim]; rewrite ?simple_cons; destruct (tcons g); cbn [negb] in *;
    destruct v; cbn [denotes denotes_parted] in H; try contradiction.
  - destruct H as [-> ->]. destruct b; reflexivity.
  - pose proof (all_zero c O) as AZ. destruct H as [->|[LX ->]]; [destruct b; reflexivity|]. destruct c as [|x [|x' c]]; rewrite ?LX, ?AZ; try reflexivity.
    cbn [existsb]. destruct (N.eqb_spec x 255) as [->|]; [reflexivity|]. destruct (N.eqb_spec x 0) as [->|]; [reflexivity|]. rewrite orb_false_r. reflexivity.
  - rewrite (int_read c z O H). reflexivity.
  - rewrite (int_read c z O H). reflexivity.
  - destruct H as (LX & NE & xs & ls & (es & F & ->) & G & ->). destruct (List.concat es) as [|x s] eqn:E; [congruence|]. rewrite LX, <- E.
    rewrite (segments_read _ _ _ F _ (le_n _)). cbn [rbind]. rewrite (joined_read [] _ _ G). reflexivity.
  - pose proof (bits_read [] _ _ H) as D. destruct c as [|u [|x o]]; [discriminate D| |rewrite D; reflexivity].
    cbn [dec_bits] in D. destruct (7 <? u); [discriminate D|]. cbn in D. destruct (N.eqb_spec u 0) as [->|NZ]; [cbn in D; injection D as <-; reflexivity|].
    destruct (N.ltb_spec 0 u); [discriminate D|lia].
  - destruct H as (LX & xs & (es & F & ->) & ->). rewrite LX, (segments_read _ _ _ F _ (le_n _)). reflexivity.
  - subst. reflexivity.
  - subst. reflexivity.
  - destruct H as [H1 H2]. rewrite <- (oid_spec _ H2) in H1. rewrite (dec_enc_oid _ _ H1). reflexivity.
  - cbn [same_prim] in S. apply prim_eqb_sound in S. injection S as S. rewrite <- S. destruct H as (xs & (es & F & ->) & [E H]).
    rewrite string_universal, (segments_read _ _ _ F _ (le_n _)). cbn [rbind]. rewrite E, (text_read _ _ H). reflexivity.
  - cbn [same_prim] in S. apply prim_eqb_sound in S. injection S as S. rewrite <- S. destruct H as [-> H]. rewrite (text_read _ _ H). reflexivity.
Qed.

(** ** Bounds *)

(** Equal bounds are implied bounds. *)
Lemma same_covers : forall cs c, cons_same cs c = true -> covers cs c = true.
Proof.
  intros cs c H. apply andb_prop in H. destruct H as [H _]. apply forallb_forall. intros a I. pose proof (proj1 (forallb_forall _ _) H a I) as K. cbv beta in K.
  apply existsb_exists in K. destruct K as (s & J & K). apply existsb_exists. exists s. split; [exact J|]. unfold implies. rewrite K. reflexivity.
Qed.
Lemma bounds_fields : forall nm fs, Forall (fun f => forall over acc cs t, agrees nm true (sf_type f) over acc cs t = true -> looser (sf_type f) cs t = true) fs ->
  forall gs, agree_fields [] nm true fs gs = true -> looser_fields [] fs gs = true.
Proof.
  intros nm fs F. induction F as [|[n p s] fs P F IH]; intros [|[n' q t d o] gs] H; try discriminate H; [reflexivity|].
  cbn [agree_fields looser_fields] in *. fold (agree_fields [] nm true) in H. fold (looser_fields []). rewrite !andb_true_iff in H. destruct H as [[_ H1] H2].
  cbn [spared existsb] in H1. cbn [sf_type] in P. rewrite (IH gs H2), andb_true_r. destruct (spared_slot [] n p); [reflexivity|exact (P None [] [] t H1)].
Qed.
Lemma bounds_alts : forall nm fs, Forall (fun f => forall over acc cs t, agrees nm true (sf_type f) over acc cs t = true -> looser (sf_type f) cs t = true) fs ->
  forall gs, agree_alts [] nm true fs gs = true -> looser_alts [] fs gs = true.
Proof.
  intros nm fs F. induction F as [|[n p s] fs P F IH]; intros [|[n' q t d o] gs] H; try discriminate H; try reflexivity.
  cbn [agree_alts looser_alts] in *. fold (agree_alts [] nm true) in H. fold (looser_alts []). rewrite !andb_true_iff in H. destruct H as [[_ H1] H2].
  cbn [spared existsb] in *. cbn [sf_type] in P. rewrite (IH gs H2), andb_true_r. exact (P None [] [] t H1).
Qed.
Lemma bounds_looser : forall nm s over acc cs t, agrees nm true s over acc cs t = true -> looser s cs t = true.
Proof.
  assert (SC : forall cs names c, seq_cons true cs names c = true -> seq_cons false cs names c = true)
    by (intros cs names c H; unfold seq_cons in *; destruct (ctruthy c); [exact H|reflexivity]).
  intros nm s. induction s as [p| |fs IH|fs IH|s IH|s IH|alts IH|c n e s IH|c s IH] using sty_ind2; intros over acc cs t H; cbn [agrees_but] in H; cbn [looser_but].
  - destruct t as [k m| | |]; try discriminate H. rewrite !andb_true_iff in H. exact (same_covers _ _ (proj2 H)).
  - destruct t as [[] m| | |]; try discriminate H. rewrite !andb_true_iff in H. exact (same_covers _ _ (proj2 H)).
  - destruct t as [|[] m gs| |]; try discriminate H. rewrite !andb_true_iff in H. destruct H as [[[_ H1] _] H2]. apply andb_true_iff.
    split; [exact (SC _ _ _ H1)|exact (bounds_fields nm fs IH gs H2)].
  - destruct t as [|[] m gs| |]; try discriminate H. rewrite !andb_true_iff in H. destruct H as [[[_ H1] _] H2]. apply andb_true_iff.
    split; [exact (SC _ _ _ H1)|exact (bounds_fields nm fs IH gs H2)].
  - destruct t as [| |[] m [t|]|]; try discriminate H. rewrite !andb_true_iff in H. destruct H as [[[_ _] H1] H2]. apply andb_true_iff.
    split; [exact (same_covers _ _ H1)|exact (IH _ _ _ _ H2)].
  - destruct t as [| |[] m [t|]|]; try discriminate H. rewrite !andb_true_iff in H. destruct H as [[[_ _] H1] H2]. apply andb_true_iff.
    split; [exact (same_covers _ _ H1)|exact (IH _ _ _ _ H2)].
  - destruct t as [| | |m gs]; try discriminate H. rewrite !andb_true_iff in H. exact (bounds_alts nm alts IH gs (proj2 H)).
  - destruct e; exact (IH _ _ _ _ H).
  - exact (IH _ _ _ _ H).
Qed.

(** ** Types *)

Lemma alt_taken_nth : forall bd fs i x e, alt_taken bd false fs i x e -> exists f, nth_error fs i = Some f /\ taken_for bd false (sf_type f) None x e.
Proof.
  intros bd fs. induction fs as [|[n p s] fs IH]; intros i x e H.
  - destruct i; destruct H as [H _]; discriminate H.
  - destruct i as [|i]; [exists (SF n p s); split; [reflexivity|exact H]|]. exact (IH i x e H).
Qed.
Lemma part_taken_nth : forall bd new fs i x e, part_taken bd new fs i x e -> exists f, nth_error fs i = Some f /\ taken_for bd new (sf_type f) None x e.
Proof.
  intros bd new fs. induction fs as [|[n p s] fs IH]; intros i x e H.
  - destruct i; destruct H.
  - destruct i as [|i]; [exists (SF n p s); split; [reflexivity|exact H]|]. exact (IH i x e H).
Qed.
Lemma looser_alts_nth : forall sk fs gs, looser_alts sk fs gs = true -> forall i f g, nth_error fs i = Some f -> nth_error gs i = Some g -> spared sk (sf_name f) = false ->
  looser_but sk (sf_type f) [] (ftype g) = true.
Proof.
  intro sk. induction fs as [|[n p s] fs IH]; intros [|[n' q t d o] gs] H i f g N M SP; try (destruct i; discriminate N); try (destruct i; discriminate M).
  cbn [looser_alts] in H. fold (looser_alts sk) in H. apply andb_prop in H. destruct H as [H1 H2].
  destruct i as [|i]; [injection N as <-; injection M as <-; cbn [sf_name] in SP; rewrite SP in H1; exact H1|exact (IH gs H2 i f g N M SP)].
Qed.
Lemma looser_fields_all : forall sk fs gs, looser_fields sk fs gs = true -> looser_alts sk fs gs = true.
Proof.
  intro sk. induction fs as [|[n p s] fs IH]; intros [|[n' q t d o] gs] H; try discriminate H; try reflexivity.
  cbn [looser_alts looser_fields] in *. fold (looser_alts sk). fold (looser_fields sk) in H. apply andb_prop in H. destruct H as [H1 H2].
  rewrite (IH gs H2), andb_true_r. unfold spared_slot in H1. destruct (spared sk n); [reflexivity|]. destruct p; exact H1.
Qed.
Lemma same_tags : forall own ts gs, all2 tag_is own ts = true -> con_tags own gs = true -> tags_eqb ts gs = true.
Proof.
  induction own as [|a own IH]; intros [|t ts] [|g gs] A B; try discriminate A; try discriminate B; [reflexivity|].
  unfold con_tags in B. cbn [all2] in A, B. apply andb_prop in A, B. destruct A as [A1 A2], B as [B1 B2].
  unfold tags_eqb. cbn [list_eqb]. apply andb_true_iff. split; [|exact (IH ts gs A2 B2)].
  destruct (tag_is_ok _ _ A1) as [A3 A4]. destruct (tag_is_ok _ _ B1) as [B3 B4]. unfold tag_eqb.
  destruct t as [c k n], g as [c' k' n'], a as [c0 n0]. cbn in *. subst. rewrite N.eqb_refl. destruct c'; reflexivity.
Qed.
Lemma open_eqb : forall ts gs, tags_eqb ts gs = true -> forallb open_tag gs = true -> forallb open_tag ts = true.
Proof.
  induction ts as [|[c k n] ts IH]; intros [|[c' k' n'] gs] A B; try discriminate A; [reflexivity|].
  unfold tags_eqb in A. cbn [list_eqb forallb] in *. apply andb_prop in A, B. destruct A as [A1 A2], B as [B1 B2]. rewrite (IH gs A2 B2), andb_true_r.
  unfold open_tag, tag_eqb in *. cbn [tcls tnum] in *. apply andb_prop in A1. destruct A1 as [A1 _]. destruct c, c'; try discriminate A1; exact B1.
Qed.
Lemma outer_open : forall k gs, outer_ok k gs = true -> forallb open_tag (tl gs) = true.
Proof.
  intros k gs H. unfold outer_ok in H. apply forallb_forall. intros g I. pose proof (proj1 (forallb_forall _ _) H g I) as K. cbv beta in K.
  apply andb_prop in K. exact (proj2 K).
Qed.
(** A type with a tag of its own. *)
Lemma good_own : forall t own acc m k k' c inner b v, con_tags (own :: acc) (tags m) = true -> an_item own k c inner -> wraps false acc inner b ->
  tag_map t = mkT [tags m] false true -> outer_ok k' (tags m) = true ->
  (forall g ts tlv, tcons g = k -> tags_eqb (g :: ts) (tags m) = true -> dec_val None t (g :: ts) tlv c = Ok v) -> good None t v b.
Proof.
  intros t own acc m k k' c inner b v C I W TM OK D. set (g := mkTag (fst own) k (snd own)).
  assert (HG : header g c inner) by (unfold header, g; cbn [tcls tcons tnum]; destruct own; exact I).
  destruct (wraps_opens acc g c inner b HG W) as (ts & O & A).
  assert (E : tags_eqb (g :: ts) (tags m) = true).
  { apply (same_tags (own :: acc)); [|exact C]. cbn [all2]. rewrite A. unfold tag_is, g. cbn [tcls tnum]. rewrite N.eqb_refl. destruct (fst own); reflexivity. }
  assert (OT : forallb open_tag ts = true).
  { pose proof (outer_open _ _ OK) as OO. destruct (tags m) as [|g0 gs0]; [discriminate E|]. cbn [tl] in OO. unfold tags_eqb in E. cbn [list_eqb] in E.
    apply andb_prop in E. exact (open_eqb ts gs0 (proj2 E) OO). }
  destruct (opens_reads _ _ _ O OT) as [tlv R]. exists (g :: ts), tlv, c. rewrite TM. cbn [keys dflt].
  split; [exact R|]. split; [pose proof (opens_size _ _ _ O) as S; intros ->; cbn in S; lia|]. split; [discriminate|].
  split; [unfold accepts, mem_tags; cbn [keys existsb]; rewrite E; reflexivity|]. split; [|split; [exact (D g ts tlv eq_refl E)|split; [intros _; exact (D g ts c eq_refl E)|discriminate]]].
  intros _ p q EQ P Q. cbn [mem_tags existsb]. rewrite orb_false_r. destruct (tags_eqb q (tags m)) eqn:F; [exfalso|reflexivity].
  apply tags_eqb_length in F. apply tags_eqb_length in E. rewrite EQ in E. rewrite app_length in E. destruct p; [congruence|]. cbn in E. lia.
Qed.

Section complete.
  Variable sk : list exempt.
  Variable nm : bool.
  Definition reads_ok (s : sty) : Prop := forall over acc cs t inner b v, agrees_but sk nm false s over acc cs t = true -> looser_but sk s cs t = true -> wf t = true ->
    (any_under s = true -> over = None -> acc = []) -> octets b -> taken_for true false s over v inner -> leaves sk s v = true -> seen s v cs = true ->
    wraps (match over with None => choice_under s | _ => false end) acc inner b -> good None t v b.

  Lemma wraps_octets : forall k acc inner b, wraps k acc inner b -> octets b -> octets inner.
  Proof.
    intros k acc. revert k. induction acc as [|a acc IH]; intros k inner b W O; [cbn in W; subst; exact O|].
    destruct W as (k0 & e & j & I & _ & W). pose proof (item_octets _ _ _ _ I (IH _ _ _ W O)) as OI. exact (proj1 (octets_app _ _ OI)).
  Qed.
  Lemma all_seen : forall s v cs, plain_under s = true -> seen s v cs = true -> forallb (fun c => sok c v) cs = true.
  Proof.
    intros s v cs P H. apply forallb_forall. intros c I. pose proof (proj1 (forallb_forall _ _) H c I) as K. cbv beta in K.
    replace (observed c s) with true in K by (unfold observed; rewrite P; destruct c; reflexivity). exact K.
  Qed.

  Lemma prim_reads : forall p, reads_ok (APrim p).
  Proof.
    intros p over acc cs t inner b v A L W _ O T _ S WR. destruct t as [k m| | |]; try discriminate A.
    cbn [agrees_but] in A. rewrite !andb_true_iff in A. destruct A as [[[A1 A2] _] _]. cbn [looser_but] in L.
    assert (WR' : wraps false acc inner b) by (destruct over; exact WR). clear WR.
    destruct T as (kk & c & IT & DN). pose proof (item_octets _ _ _ _ IT (wraps_octets _ _ _ _ WR' O)) as OC.
    assert (TM : tag_map (TPrim k m) = mkT [tags m] false true) by (destruct p, k; try discriminate A1; reflexivity).
    assert (OK : outer_ok false (tags m) = true) by (destruct p, k; try discriminate A1; cbn [wf] in W; apply andb_prop in W; exact (proj2 W)).
    apply (good_own (TPrim k m) _ acc m kk false c inner b v (prim_con _ _ A2) IT WR' TM OK). intros g ts tlv G _. rewrite dec_val_prim.
    pose proof (contents_shape _ _ _ _ DN) as SH. rewrite <- G in DN. rewrite (prim_read p k m g ts tlv c v OC A1 DN). cbn [rbind].
    rewrite (covers_ok _ _ v [] L (shape_measured p v SH)); [reflexivity|]. rewrite forallb_app, (built_in_ok p v SH). exact (all_seen (APrim p) v cs eq_refl S).
  Qed.
  Lemma any_reads : reads_ok AAny.
  Proof.
    intros over acc cs t inner b v A L W AN O T _ S WR. destruct t as [[] m| | |]; try discriminate A.
    cbn [agrees_but] in A. apply andb_prop in A. destruct A as [A1 _]. cbn [looser_but] in L. apply out_con in A1.
    cbn [wf] in W. apply Nat.leb_le in W. destruct T as (x & -> & T).
    assert (acc = []).
    { destruct over as [u|]; [|exact (AN eq_refl eq_refl)]. apply all2_length in A1. cbn in A1. destruct acc; [reflexivity|cbn in A1; lia]. }
    subst acc. cbn in WR. subst inner.
    assert (CS : csat [] (spec m) (VOcts x) = true) by exact (covers_ok cs (spec m) (VOcts x) [] L eq_refl (all_seen AAny (VOcts x) cs eq_refl S)).
    assert (G : forall g c, header g c b -> (tags_eqb [g] (tags m) = true \/ (tcls g, tnum g) <> (Universal, 0)) ->
      x = (if tags_eqb [g] (tags m) then c else b) -> good None (TPrim KAny m) (VOcts x) b).
    { intros g c H E X. exists [g], b, c. cbn [tag_map keys dflt]. split; [|split; [|split; [discriminate|split; [|split; [discriminate|split; [|split; [discriminate|reflexivity]]]]]]].
      - apply reads_any. rewrite <- (app_nil_r b). exact (header_read _ _ _ [] H).
      - pose proof (header_size _ _ _ H) as SZ. intros ->. cbn in SZ. lia.
      - unfold accepts, mem_tags. cbn [keys dflt existsb]. destruct E as [E|E]; [rewrite E; reflexivity|]. destruct (tags_eqb [g] (tags m)); [reflexivity|].
        cbn [orb andb]. apply negb_true_iff. unfold eoo, tags_eqb. cbn [list_eqb]. rewrite andb_true_r. unfold tag_eqb. cbn [tcls tnum].
        destruct (tclass_eqb (tcls g) Universal) eqn:TC; [|reflexivity]. cbn [andb]. destruct (N.eqb_spec (tnum g) 0) as [Z|Z]; [|reflexivity].
        destruct E. rewrite Z. destruct (tcls g); try discriminate TC. reflexivity.
      - rewrite dec_val_prim. cbn [dec_prim rbind]. rewrite <- X, CS. reflexivity. }
    destruct over as [u|].
    - cbn [bare app] in A1. pose proof (all2_length _ _ _ _ _ A1) as LN. destruct (tags m) as [|g' [|]] eqn:TM; try discriminate LN.
      destruct T as [(k & IT)|[<- (u' & k & c & IT & N0 & NU)]].
      + assert (E : tags_eqb [mkTag (fst u) k (snd u)] [g'] = true).
        { apply (same_tags [u]); [|exact A1]. cbn [all2]. unfold tag_is. cbn [tcls tnum]. rewrite N.eqb_refl. destruct (fst u); reflexivity. }
        apply (G (mkTag (fst u) k (snd u)) x); [unfold header; cbn [tcls tcons tnum]; destruct u; exact IT| |].
        * left. exact E.
        * rewrite E. reflexivity.
      + apply (G (mkTag (fst u') k (snd u')) c); [unfold header; cbn [tcls tcons tnum]; destruct u'; exact IT| |].
        * right. cbn [tcls tnum]. destruct u'; exact N0.
        * assert (E : tags_eqb [mkTag (fst u') k (snd u')] [g'] = false); [|rewrite E; reflexivity]. unfold tags_eqb. cbn [list_eqb]. rewrite andb_true_r. unfold tag_eqb. cbn [tcls tnum].
          unfold con_tags in A1. cbn [all2] in A1. rewrite andb_true_r in A1. destruct (tag_is_ok _ _ A1) as [T1 T2].
          destruct (tclass_eqb (fst u') (tcls g')) eqn:TC; [|reflexivity]. cbn [andb]. apply N.eqb_neq. intro Q. apply NU.
          destruct u as [uc un], u' as [uc' un'], g' as [gc gk gn]. cbn in *. subst. f_equal. destruct uc', gc; try discriminate TC; reflexivity.
    - cbn [bare app] in A1. destruct (tags m) as [|] eqn:TM; [|discriminate A1]. destruct T as [<- (u & k & c & IT & NU)].
      apply (G (mkTag (fst u) k (snd u)) c); [unfold header; cbn [tcls tcons tnum]; destruct u; exact IT|right; cbn [tcls tnum]; destruct u; exact NU|reflexivity].
  Qed.

  Lemma comp_reads : forall s, reads_ok s -> forall t v e, agrees_but sk nm false s None [] [] t = true -> looser_but sk s [] t = true -> wf t = true -> octets e ->
    taken_for true false s None v e -> leaves sk s v = true -> good None t v e.
  Proof. intros s K t v e A L W O T LV. exact (K None [] [] t e e v A L W (fun _ _ => eq_refl) O T LV eq_refl eq_refl). Qed.
  (** A component that may be missing is missed. *)
  Lemma missed : forall L f g o, left sk L f o = true ->
    need_ok sk (sf_name f) (sf_need f) (fpres g) (fdef g) = true -> o = when_absent (sf_need f) -> needs (sf_need f) (fcomp None g).
  Proof.
    intros L [n p s] g o H N ->. unfold left in H. cbn [sf_name sf_need sf_type] in *. unfold need_ok in N. destruct (excluded sk n) eqn:X; [exfalso|exact (same_needs _ _ N)].
    unfold slot_leaves in H. rewrite X in H. destruct p as [| |d]; cbn [when_absent] in H; try discriminate H.
    cbn [encoded] in H. rewrite (proj2 EqbFacts.eqb_refl) in H. destruct (spared sk n); discriminate H.
  Qed.

  Lemma fields_slots : forall fs, Forall (fun f => reads_ok (sf_type f)) fs -> forall gs vs c, agree_fields sk nm false fs gs = true -> looser_fields sk fs gs = true ->
    forallb wf_field gs = true -> octets c -> fields_taken true false fs vs c -> leave_fields sk fs vs = true -> exists ch, slots None gs vs ch /\ c = List.concat ch.
  Proof.
    intros fs F gs vs c A. apply fields_agree in A. intro L. apply looser_fields_all in L. revert vs c L. induction A as [|f g fs gs [A1 A2] A IH]; intros vs c L W O T LV.
    - destruct vs; [|destruct T]. cbn in T. subst. exists []. split; [constructor|reflexivity].
    - inversion F as [|? ? F1 F2]; subst. pose proof (looser_alts_nth _ _ _ L 0 f g eq_refl eq_refl) as L1.
      assert (L2 : looser_alts sk fs gs = true) by (destruct f, g; cbn [looser_alts] in L; apply andb_prop in L; exact (proj2 L)).
      pose proof (wf_fields_in _ g W (or_introl eq_refl)) as W1. cbn [forallb] in W. apply andb_prop in W. destruct W as [_ W2].
      pose proof (missed (leaves sk) f g) as ND. destruct f as [n p s]. cbn [sf_type sf_need sf_name] in *. destruct vs as [|o vs]; [destruct T|].
      change (slot_leaves sk (leaves sk s) n p o && leave_fields sk fs vs = true) in LV. apply andb_prop in LV. destruct LV as [LV LVS].
      destruct T as [(x & e & c' & -> & -> & T1 & T2)|(P & -> & T2)].
      + apply octets_app in O. destruct O as [O1 O2]. destruct (IH F2 vs c' L2 W2 O2 T2 LVS) as (ch & S & ->). exists (e :: ch). split; [|reflexivity].
        unfold slot_leaves in LV. destruct (spared sk n) eqn:SP; [discriminate LV|]. apply andb_prop in LV.
        constructor; [exact (comp_reads s F1 _ _ _ (A2 eq_refl) (L1 eq_refl) W1 O1 T1 (proj2 LV))|exact S].
      + destruct (IH F2 vs c L2 W2 O T2 LVS) as (ch & S & ->). specialize (ND _ LV A1 eq_refl). exists ch. split; [|reflexivity].
        assert (E : when_absent p = absent (fcomp None g) /\ freq g = false).
        { destruct ND as [N1 N2]. split; [exact (eq_sym N2)|]. destruct (freq g) eqn:R; [|reflexivity]. destruct P. apply N1. exact R. }
        destruct E as [-> E]. constructor; [exact E|exact S].
  Qed.

  Lemma put_nth : forall (its : list (nat * aval * bytes)) sl j, nth_error (fold_left put (map fst its) sl) j =
    match nth_error sl j with
    | Some o => Some (fold_left (fun o it => if Nat.eqb (fst (fst it)) j then Some (snd (fst it)) else o) its o)
    | None => None
    end.
  Proof.
    assert (SN : forall i (x : option aval) l j, nth_error (set_nth i x l) j = match nth_error l j with Some o => Some (if Nat.eqb i j then x else o) | None => None end).
    { induction i as [|i IH]; intros x [|y l] [|j]; cbn [set_nth nth_error Nat.eqb]; try reflexivity; [destruct (nth_error l j); reflexivity|apply IH]. }
    induction its as [|it its IH]; intros sl j; cbn [map fold_left]; [destruct (nth_error sl j); reflexivity|]. rewrite IH. unfold put. rewrite SN.
    destruct (nth_error sl j); [|reflexivity]. destruct (Nat.eqb (fst (fst it)) j); reflexivity.
  Qed.
  Lemma fill_ok : forall (fs : list sfield) cs, Forall2 (fun _ _ => True) fs cs -> forall sl vs, List.length sl = List.length fs -> List.length vs = List.length fs ->
    (forall j f k, nth_error fs j = Some f -> nth_error cs j = Some k -> exists o, nth_error sl j = Some o /\
       nth_error vs j = Some (match o with Some x => Some x | None => when_absent (sf_need f) end) /\ (sf_need f = Mandatory -> o <> None) /\ (o = None -> needs (sf_need f) k)) ->
    fill cs sl = Ok vs.
  Proof.
    intros fs cs F. induction F as [|f k fs cs _ F IH]; intros [|o sl] [|v vs] L1 L2 H; try discriminate L1; try discriminate L2; [reflexivity|].
    cbn [fill]. rewrite (IH sl vs); [|cbn in L1; lia|cbn in L2; lia|intros j g k' N M; exact (H (S j) g k' N M)]. cbn [rbind].
    destruct (H 0%nat f k eq_refl eq_refl) as (o' & E1 & E2 & E3 & E4). cbn [nth_error] in E1, E2. injection E1 as <-. injection E2 as ->.
    destruct o as [x|]; [reflexivity|]. destruct (E4 eq_refl) as [N1 N2]. destruct (required k) eqn:R; [exfalso; apply (E3 (proj1 N1 eq_refl)); reflexivity|]. rewrite N2. reflexivity.
  Qed.
  Lemma set_reads : forall fs, Forall (fun f => reads_ok (sf_type f)) fs -> forall gs vs items, agree_fields sk nm false fs gs = true -> looser_fields sk fs gs = true ->
    forallb wf_field gs = true -> alts_ok gs = true -> octets (List.concat (map snd items)) ->
    Forall (fun it => part_taken true false fs (fst (fst it)) (snd (fst it)) (snd it)) items -> slots_of fs items vs ->
    leave_members sk fs vs = true ->
    (let c := List.concat (map snd items) in
     let! sl := dec_set (List.length c) (map (fcomp None) gs) (map (fun _ => None) (map (fcomp None) gs)) c in fill (map (fcomp None) gs) sl) = Ok vs.
  Proof.
    intros fs F gs vs items A L W AL O T [LV SL] FR. cbv zeta. apply fields_agree in A. apply looser_fields_all in L.
    assert (LH : forall (items : list (nat * aval * list N)) o i, (o <> None \/ exists v bs, In (i, v, bs) items) ->
      fold_left (fun o it => if Nat.eqb (fst (fst it)) i then Some (snd (fst it)) else o) items o <> None).
    { induction items0 as [|it its IH]; intros o i H; cbn [fold_left].
      - destruct H as [H|(v & bs & H)]; [exact H|destruct H].
      - apply IH. destruct H as [H|(v & bs & [->|H])].
        + left. destruct (Nat.eqb (fst (fst it)) i); [discriminate|exact H].
        + left. cbn [fst snd]. rewrite Nat.eqb_refl. discriminate.
        + right. exists v, bs. exact H. }
    assert (FF : forall i v bs f, In (i, v, bs) items -> nth_error fs i = Some f -> spared sk (sf_name f) = false /\ free sk (sf_type f) = true).
    { intros i v bs f I N. destruct (SL i f N) as [S1 _]. pose proof (LH items None i (or_intror (ex_intro _ v (ex_intro _ bs I)))) as NE.
      change (last_of i items <> None) in NE. destruct (last_of i items) as [x|]; [|congruence].
      pose proof (leave_nth sk _ _ _ FR i f _ N S1) as K. unfold left, slot_leaves in K. destruct (spared sk (sf_name f)); [discriminate K|].
      apply andb_prop in K. split; [reflexivity|exact (proj2 K)]. }
    assert (G : forall i v bs, In (i, v, bs) items -> exists g, nth_error gs i = Some g /\ good None (ftype g) v bs).
    { intros i v bs I. pose proof (proj1 (Forall_forall _ _) T _ I) as P. cbn [fst snd] in P. destruct (part_taken_nth _ _ _ _ _ _ P) as (f & N & TK).
      destruct (FF i v bs f I N) as (SP & FV).
      assert (X : exists g, nth_error gs i = Some g /\ agrees_but sk nm false (sf_type f) None [] [] (ftype g) = true).
      { clear - A N SP. revert i N. induction A as [|f' g fs gs [_ A2] A IH]; intros [|i] N; try discriminate N.
        - injection N as ->. exists g. split; [reflexivity|exact (A2 SP)].
        - exact (IH i N). }
      destruct X as (g & M & A2). exists g. split; [exact M|].
      apply (comp_reads (sf_type f) (proj1 (Forall_forall _ _) F f (nth_error_In _ _ N)) _ _ _ A2 (looser_alts_nth _ _ _ L _ _ _ N M SP) (wf_fields_in _ _ W (nth_error_In _ _ M))); [|exact TK|exact (free_leaves sk _ v FV)].
      clear - I O. induction items as [|it items IH]; [destruct I|]. cbn [map List.concat] in O. apply octets_app in O. destruct O as [O1 O2].
      destruct I as [->|I]; [exact O1|exact (IH O2 I)]. }
    rewrite (dec_set_items None gs items _ _ AL G).
    - cbn [rbind]. assert (LG : List.length gs = List.length fs) by (clear - A; induction A; cbn; congruence).
      assert (ND : Forall2 (fun (_ : sfield) (_ : comp) => True) fs (map (fcomp None) gs)).
      { clear - A. induction A as [|f g fs gs _ A IH]; [constructor|]. cbn [map]. constructor; [exact I|exact IH]. }
      apply (fill_ok fs _ ND); [|exact LV|].
      + assert (P : forall (l : list (nat * aval)) sl, List.length (fold_left put l sl) = List.length sl).
        { induction l as [|[i x] l IH]; intro sl; [reflexivity|]. cbn [fold_left]. rewrite IH. unfold put. cbn [fst snd].
          clear. revert i. induction sl as [|y sl IH]; intros [|i]; cbn; congruence. }
        rewrite P, !map_length. exact LG.
      + intros j f k N NK. destruct (SL j f N) as [S1 S2]. exists (last_of j items). split; [|split; [exact S1|split; [exact S2|]]].
        2: { intro LN. rewrite LN in S1. pose proof (leave_nth sk _ _ _ FR j f _ N S1) as K. rewrite nth_error_map in NK.
          destruct (nth_error gs j) as [g|] eqn:NG; [|discriminate NK]. injection NK as <-.
          assert (NO : need_ok sk (sf_name f) (sf_need f) (fpres g) (fdef g) = true).
          { destruct (Forall2_nth _ _ _ _ _ A j g NG) as (f' & NF & [NO _]). rewrite N in NF. injection NF as ->. exact NO. }
          exact (missed _ f g _ K NO eq_refl). }
        rewrite put_nth. assert (J : (j < List.length gs)%nat) by (rewrite LG; apply nth_error_Some; congruence).
        rewrite nth_error_map, nth_error_map. destruct (nth_error gs j) eqn:NG; [reflexivity|]. apply nth_error_None in NG. lia.
    - clear - G. induction items as [|[[i v] bs] items IH]; [apply le_n|]. cbn [map List.concat snd List.length]. rewrite app_length.
      destruct (G i v bs (or_introl eq_refl)) as (g & _ & GG). pose proof (good_nonempty _ _ _ _ GG) as NE. destruct bs; [congruence|]. cbn [List.length].
      assert (K := IH (fun i v bs I => G i v bs (or_intror I))). lia.
  Qed.
  Lemma seq_checked : forall s cs names c vs, seq_cons false cs names c = true -> List.length vs = List.length names -> seen s (VSeq vs) cs = true ->
    ctruthy c && negb (csat names c (VSeq vs)) = false.
  Proof.
    intros s cs names c vs H L S. unfold seq_cons in H. destruct (ctruthy c); [|reflexivity]. destruct cs as [|[] [|? ?]]; try discriminate H.
    rewrite (with_ok _ _ _ _ H L). unfold seen in S. cbn [forallb observed negb orb] in S. rewrite andb_true_r in S. rewrite S. reflexivity.
  Qed.
  Lemma seq_reads : forall set fs, Forall (fun f => reads_ok (sf_type f)) fs -> reads_ok (if set : bool then ASet fs else ASeq fs).
  Proof.
    intros set fs F over acc cs t inner b v A L W _ O T LV S WR.
    assert (X : exists m gs, t = TSeq set m gs /\ con_tags (pick over (Universal, if set then 17 else 16) :: acc) (tags m) = true /\
      agree_fields sk nm false fs gs = true /\ looser_fields sk fs gs = true /\ seq_cons false cs (fnames gs) (spec m) = true).
    { destruct set, t as [|[] m gs| |]; try discriminate A; exists m, gs; cbn [agrees_but looser_but] in A, L; rewrite !andb_true_iff in A; apply andb_prop in L;
        destruct A as [[[A1 A3] _] A2], L as [_ L]; (split; [reflexivity|split; [exact A1|split; [exact A2|split; [exact L|exact A3]]]]). }
    destruct X as (m & gs & -> & A1 & A2 & L2 & A3). clear A L.
    assert (WR' : wraps false acc inner b) by (destruct set, over; exact WR). clear WR.
    rewrite wf_seq, !andb_true_iff in W. destruct W as [[[_ W1] W2] W3].
    assert (X : exists vs c, v = VSeq vs /\ an_item (pick over (Universal, if set then 17 else 16)) true c inner /\ (gs = [] -> c = []) /\
      (if set then let! sl := dec_set (List.length c) (map (fcomp None) gs) (map (fun _ => None) (map (fcomp None) gs)) c in fill (map (fcomp None) gs) sl
       else dec_seq (List.length (map (fcomp None) gs)) (map (fcomp None) gs) c) = Ok vs /\ List.length vs = List.length (fnames gs)).
    { pose proof A2 as A2'. apply fields_agree in A2'.
      assert (LG : List.length gs = List.length fs) by (clear - A2'; induction A2'; cbn; congruence). destruct set.
      - destruct T as (vs & items & -> & IT & TK & SL). exists vs, (List.concat (map snd items)). split; [reflexivity|]. split; [exact IT|].
        pose proof (item_octets _ _ _ _ IT (wraps_octets _ _ _ _ WR' O)) as OC. split; [|split].
        + intros ->. destruct fs; [|discriminate LG]. destruct items as [|it items]; [reflexivity|]. inversion TK as [|? ? P _]. destruct P.
        + exact (set_reads fs F gs vs items A2 L2 W3 W2 OC TK SL LV).
        + unfold fnames. rewrite (proj1 SL), map_length. symmetry. exact LG.
      - destruct T as (vs & c & -> & IT & TK). exists vs, c. split; [reflexivity|]. split; [exact IT|].
        pose proof (item_octets _ _ _ _ IT (wraps_octets _ _ _ _ WR' O)) as OC. destruct (fields_slots fs F gs vs c A2 L2 W3 OC TK LV) as (ch & SL & ->). split; [|split].
        + intros ->. inversion SL; subst. reflexivity.
        + rewrite map_length. apply (dec_seq_slots (List.length gs) None gs vs ch _ (le_n _) SL W2); [|apply le_n]. intros f I.
          pose proof (wf_fields_in _ _ W3 I) as WF. split; [exact (wf_tok _ WF)|exact (wf_any_direct _ WF)].
        + unfold fnames. rewrite map_length. clear - SL. induction SL; cbn; congruence. }
    destruct X as (vs & c & -> & IT & EM & D & LN). clear T.
    apply (good_own (TSeq set m gs) _ acc m true true c inner b (VSeq vs) A1 IT WR' eq_refl W1). intros g ts tlv G _. rewrite dec_seq_val. cbn [constructed]. rewrite G.
    assert (E : forall X : res aval, match gs, c with [], _ :: _ => Unm | _, _ => X end = X).
    { intro X. destruct gs; [rewrite (EM eq_refl)|]; reflexivity. }
    rewrite E. cbv zeta. rewrite D. cbn [rbind]. destruct (existsb _ gs); [reflexivity|]. rewrite (seq_checked _ _ _ _ _ A3 LN S). reflexivity.
  Qed.
  Lemma of_reads : forall set s, reads_ok s -> reads_ok (if set : bool then ASetOf s else ASeqOf s).
  Proof.
    intros set s K over acc cs t inner b v A L W _ O T LV S WR.
    assert (X : exists m e, t = TOf set m (Some e) /\ con_tags (pick over (Universal, if set then 17 else 16) :: acc) (tags m) = true /\
      agrees_but sk nm false s None [] [] e = true /\ looser_but sk s [] e = true).
    { destruct set, t as [| |[] m [e|]|]; try discriminate A; exists m, e; cbn [agrees_but looser_but] in A, L; rewrite !andb_true_iff in A; apply andb_prop in L;
        destruct A as [[[A1 _] _] A2], L as [_ L]; (split; [reflexivity|split; [exact A1|split; [exact A2|exact L]]]). }
    destruct X as (m & e & -> & A1 & A2 & L2). clear A L.
    assert (WR' : wraps false acc inner b) by (destruct set, over; exact WR). clear WR.
    cbn [wf] in W. rewrite !andb_true_iff in W. destruct W as [[_ W1] W2].
    assert (X : exists vs es, v = VList vs /\ an_item (pick over (Universal, if set then 17 else 16)) true (List.concat es) inner /\ Forall2 (taken_for true false s None) vs es)
      by (destruct set; exact T).
    destruct X as (vs & es & -> & IT & TK). pose proof (item_octets _ _ _ _ IT (wraps_octets _ _ _ _ WR' O)) as OC.
    assert (G : Forall2 (good None e) vs es).
    { assert (LF : forallb (leaves sk s) vs = true) by (destruct set; exact LV). clear - K A2 L2 W2 OC TK LF. induction TK as [|x o vs es T TK IH]; [constructor|].
      cbn [forallb] in LF. apply andb_prop in LF. destruct LF as [LF1 LF2]. cbn [List.concat] in OC. apply octets_app in OC. destruct OC as [O1 O2].
      constructor; [exact (comp_reads s K e x o A2 L2 W2 O1 T LF1)|exact (IH O2 LF2)]. }
    apply (good_own (TOf set m (Some e)) _ acc m true true _ inner b (VList vs) A1 IT WR' eq_refl W1). intros g ts tlv G' _.
    change (dec_val None (TOf set m (Some e)) (g :: ts) tlv (List.concat es))
      with (if tcons g then let! l := dec_list (List.length (List.concat es)) (comp_of None e) (List.concat es) in Ok (VList l) else Err). rewrite G'.
    rewrite (dec_list_good None e vs es _ (wf_tok e W2) G (chunks_length None e vs es G)). reflexivity.
  Qed.
  Lemma choice_reads : forall fs, Forall (fun f => reads_ok (sf_type f)) fs -> reads_ok (AChoice fs).
  Proof.
    intros fs F over acc cs t inner b v A L W _ O T LV S WR. destruct t as [| | |m gs]; try discriminate A.
    cbn [agrees_but] in A. rewrite !andb_true_iff in A. destruct A as [[A1 _] A2]. change (agree_alts sk nm false fs gs = true) in A2.
    cbn [looser_but] in L. change (looser_alts sk fs gs = true) in L. rewrite wf_choice, !andb_true_iff in W. destruct W as [[WO WA] WF].
    assert (GA : forall i x e, v = VAlt i x -> octets e -> alt_taken true false fs i x e -> exists g, nth_error gs i = Some g /\ good None (ftype g) x e).
    { intros i x e -> OE TK. destruct (alt_taken_nth _ _ _ _ _ TK) as (f & N & TF). rewrite leaves_choice, N in LV. apply alt_spared in LV. destruct LV as [SP LV].
      destruct (alts_nth _ _ _ _ _ A2 i f N SP) as (g & M & AG).
      exists g. split; [exact M|]. exact (comp_reads _ (proj1 (Forall_forall _ _) F f (nth_error_In _ _ N)) _ _ _ AG (looser_alts_nth _ _ _ L _ _ _ N M SP)
        (wf_fields_in _ _ WF (nth_error_In _ _ M)) OE TF LV). }
    assert (TG : forall own rest k i x e junk inner', v = VAlt i x -> con_tags (own :: rest) (tags m) = true -> an_item own k (e ++ junk) inner' -> wraps false rest inner' b ->
      alt_taken true false fs i x e -> good None (TChoice m gs) (VAlt i x) b).
    { intros own rest k i x e junk inner' EV C IT WR' TK. pose proof (item_octets _ _ _ _ IT (wraps_octets _ _ _ _ WR' O)) as OC.
      destruct (GA i x e EV (proj1 (octets_app _ _ OC)) TK) as (g & M & G).
      apply (good_own (TChoice m gs) own rest m k true _ inner' b (VAlt i x) C IT WR'); [|exact WO|].
      - rewrite tag_map_choice. destruct (tags m); [discriminate C|reflexivity].
      - intros g0 ts tlv _ E. rewrite dec_choice_val. cbv zeta. rewrite E, (dec_run_alts None gs i g x e junk WA M G). reflexivity. }
    destruct T as (i & x & EV & T). rewrite EV. destruct over as [u|].
    - destruct T as (k & e & junk & IT & TK). exact (TG u acc k i x e junk inner EV A1 IT WR TK).
    - destruct acc as [|a acc].
      + cbn in WR. subst inner. cbn [bare app] in A1. destruct (tags m) as [|] eqn:TS; [|discriminate A1]. destruct (GA i x b EV O T) as (f & N & G).
        pose proof WA as AL. unfold alts_ok in AL. cbv zeta in AL. rewrite !andb_true_iff in AL. destruct AL as [[KK NS] DF].
        apply negb_true_iff in DF. pose proof (nth_error_In _ _ N) as I. pose proof (union_dflt _ _ DF I) as DFf.
        destruct G as (ts & tlv & cc & R & B & TN & AC & OU & D & D2 & FF). unfold fmap in DFf. pose proof (accepts_keys _ _ AC DFf) as MM.
        exists ts, tlv, cc. rewrite tag_map_choice, TS.
        assert (DV : forall y, dec_val None (TChoice m gs) ts y cc = Ok (VAlt i x)).
        { intro y. rewrite dec_choice_val. cbv zeta. rewrite TS. destruct ts as [|t1 ts]; [congruence|]. cbn [tags_eqb list_eqb].
          rewrite (choose_nth None gs i f _ KK N MM). cbn [rbind]. change (c_val (fcomp None f)) with (dec_val None (ftype f)). rewrite (D2 DFf). reflexivity. }
        split; [exact R|]. split; [exact B|]. split; [exact TN|]. split; [unfold accepts; rewrite (key_of_union gs f ts I MM); reflexivity|].
        split; [intros _ p q EQ P Q; exact (no_suffix_outer _ ts p q NS (key_of_union gs f ts I MM) EQ P Q)|]. split; [apply DV|]. split; [intros _; apply DV|rewrite DF; discriminate].
      + destruct WR as (k & e' & junk & IT & _ & WR). exact (TG a acc k i x inner junk e' EV A1 IT WR T).
  Qed.
  Lemma tag_reads : forall cl n e s, reads_ok s -> reads_ok (ATag cl n e s).
  Proof.
    intros cl n e s K over acc cs t inner b v A L W _ O T LV S WR. cbn [leaves] in LV. assert (WR' : wraps false acc inner b) by (destruct over; exact WR). clear WR.
    cbn [taken_for] in T. destruct (e && negb (any_under s)) eqn:EA.
    - apply andb_prop in EA. destruct EA as [-> EA]. apply negb_true_iff in EA. destruct T as (k & e' & junk & IT & KF & T). cbn [agrees_but] in A.
      apply (K None (pick over (cl, n) :: acc) cs t e' b v A L W ltac:(intro Q; congruence) O T LV S). exists k, inner, junk. split; [exact IT|]. split; [exact KF|exact WR'].
    - assert (A' : agrees_but sk nm false s (Some (pick over (cl, n))) acc cs t = true).
      { destruct e; [|exact A]. cbn [andb] in EA. apply negb_false_iff in EA. cbn [agrees_but] in A. rewrite (any_agrees _ _ _ _ EA) in A. exact A. }
      exact (K (Some (pick over (cl, n))) acc cs t inner b v A' L W ltac:(discriminate) O T LV S WR').
  Qed.
  Lemma con_reads : forall c s, reads_ok s -> reads_ok (ACon c s).
  Proof.
    intros c0 s K over acc cs t inner b v A L W AN O [T1 T2] LV S WR. apply (K over acc (c0 :: cs) t inner b v A L W AN O T2 LV); [|exact WR].
    unfold seen. cbn [forallb]. apply andb_true_iff. split; [|exact S]. destruct (observed c0 s) eqn:OB; [|reflexivity]. exact (T1 eq_refl eq_refl).
  Qed.
  Theorem all_read : forall s, reads_ok s.
  Proof.
    induction s as [p| |fs IH|fs IH|s IH|s IH|fs IH|c n e s IH|c s IH] using sty_ind2.
    - apply prim_reads.
    - apply any_reads.
    - exact (seq_reads false fs IH).
    - exact (seq_reads true fs IH).
    - exact (of_reads false s IH).
    - exact (of_reads true s IH).
    - exact (choice_reads fs IH).
    - exact (tag_reads c n e s IH).
    - exact (con_reads c s IH).
  Qed.
  (** What may be taken for an encoding is decoded. *)
  Theorem decode_complete_but : forall s t e v rest, agrees_but sk nm false s None [] [] t = true -> looser_but sk s [] t = true -> wf t = true -> octets e ->
    taken_for true false s None v e -> leaves sk s v = true -> decode t (e ++ rest) = Ok (v, rest).
  Proof.
    intros s t e v rest A L W O T LV. unfold decode, decode_with.
    exact (dec_one_good None (Fld "" Req t None None) v e rest (wf_tok t W) (comp_reads s (all_read s) t v e A L W O T LV)).
  Qed.
End complete.
Theorem decode_complete : forall nm s t e v rest, agrees nm false s None [] [] t = true -> looser s [] t = true -> wf t = true -> octets e ->
  taken_for true false s None v e -> decode t (e ++ rest) = Ok (v, rest).
Proof. intros nm s t e v rest A L W O T. exact (decode_complete_but [] nm s t e v rest A L W O T (leaves_all s v)). Qed.

(** ** What was read is a value *)

(** A value of the type as far as its parts go: the kinds of value, every component that is
    neither OPTIONAL nor DEFAULT, no alternative but those of the CHOICE. *)
Fixpoint whole (s : sty) (v : aval) {struct s} : bool :=
  match s with
  | APrim p => prim_shape p v
  | AAny => match v with VOcts _ => true | _ => false end
  | ASeq fs | ASet fs =>
      match v with
      | VSeq vs =>
          (fix go (fs : list sfield) (vs : list (option aval)) {struct fs} : bool :=
             match fs, vs with
             | [], [] => true
             | SF _ p s' :: fs', o :: vs' =>
                 match o, p with None, Mandatory => false | None, _ => true | Some x, _ => whole s' x end && go fs' vs'
             | _, _ => false
             end) fs vs
      | _ => false
      end
  | ASeqOf s' | ASetOf s' => match v with VList vs => forallb (whole s') vs | _ => false end
  | AChoice alts =>
      match v with
      | VAlt i x => (fix go (fs : list sfield) (i : nat) {struct fs} : bool :=
                       match fs, i with SF _ _ s' :: _, O => whole s' x | _ :: fs', S i' => go fs' i' | [], _ => false end) alts i
      | _ => false
      end
  | ATag _ _ _ s' | ACon _ s' => whole s' v
  end.
(** The defaults are such values. *)
Fixpoint defaults_whole (s : sty) : bool :=
  let fix go (fs : list sfield) : bool :=
    match fs with
    | [] => true
    | SF _ p s' :: fs' => if match p with Default d => whole s' d | _ => true end then if defaults_whole s' then go fs' else false else false
    end in
  match s with
  | ASeq fs | ASet fs | AChoice fs => go fs
  | ASeqOf s' | ASetOf s' | ATag _ _ _ s' | ACon _ s' => defaults_whole s'
  | _ => true
  end.
Definition default_whole (f : sfield) : bool :=
  match f with SF _ p s => if match p with Default d => whole s d | _ => true end then defaults_whole s else false end.
Lemma defaults_go : forall fs, (fix go (fs : list sfield) : bool :=
    match fs with
    | [] => true
    | SF _ p s' :: fs' => if match p with Default d => whole s' d | _ => true end then if defaults_whole s' then go fs' else false else false
    end) fs = forallb default_whole fs.
Proof.
  induction fs as [|[n p s] fs IH]; [reflexivity|]. cbn [forallb default_whole]. rewrite <- IH.
  destruct (match p with Default d => whole s d | _ => true end); [|reflexivity]. destruct (defaults_whole s); reflexivity.
Qed.
Definition takes_whole (bd : bool) (s : sty) : Prop := forall over v b, defaults_whole s = true -> taken_for bd false s over v b -> whole s v = true.
Definition part_whole (f : sfield) (o : option aval) : bool :=
  match f with SF _ p s => match o, p with None, Mandatory => false | None, _ => true | Some x, _ => whole s x end end.
Lemma fields_whole : forall bd fs, Forall (fun f => takes_whole bd (sf_type f)) fs -> forall vs c, forallb default_whole fs = true -> fields_taken bd false fs vs c ->
  Forall2 (fun f o => part_whole f o = true) fs vs.
Proof.
  intros bd fs F. induction F as [|[n p s] fs P F IH]; intros vs c D T.
  - destruct vs; [constructor|destruct T].
  - cbn [forallb default_whole] in D. apply andb_prop in D. destruct D as [D1 D2]. cbn [sf_type] in P. destruct vs as [|o vs]; [destruct T|].
    destruct T as [(x & e & c' & -> & -> & T1 & T2)|(N & -> & T2)]; constructor; try exact (IH _ _ D2 T2).
    + cbn [part_whole]. destruct (match p with Default d => whole s d | _ => true end); [|discriminate D1]. exact (P None x e D1 T1).
    + cbn [part_whole]. destruct p as [| |d]; cbn [when_absent]; [congruence|reflexivity|]. destruct (whole s d); [reflexivity|discriminate D1].
Qed.
Lemma whole_fields : forall fs vs, Forall2 (fun f o => part_whole f o = true) fs vs -> whole (ASeq fs) (VSeq vs) = true.
Proof.
  intros fs vs F. cbn [whole]. induction F as [|[n p s] o fs vs P F IH]; [reflexivity|]. cbn [part_whole] in P. rewrite P. exact IH.
Qed.
Lemma Forall2_by_nth : forall A B (R : A -> B -> Prop) l m, List.length m = List.length l ->
  (forall j a, nth_error l j = Some a -> exists b, nth_error m j = Some b /\ R a b) -> Forall2 R l m.
Proof.
  intros A B R l. induction l as [|a l IH]; intros [|b m] L H; try discriminate L; [constructor|]. constructor.
  - destruct (H 0%nat a eq_refl) as (b' & E & Q). injection E as ->. exact Q.
  - apply IH; [cbn in L; lia|]. intros j x N. exact (H (S j) x N).
Qed.
Lemma last_in : forall j (items : list (nat * aval * list N)) x, last_of j items = Some x -> exists e, In (j, x, e) items.
Proof.
  intros j items x. unfold last_of. assert (G : forall items o, fold_left (fun o (it : nat * aval * list N) => if Nat.eqb (fst (fst it)) j then Some (snd (fst it)) else o) items o = Some x ->
    o = Some x \/ exists e, In (j, x, e) items).
  { clear. induction items as [|[[i y] e] items IH]; intros o H; [left; exact H|]. cbn [fold_left fst snd] in H. destruct (IH _ H) as [E|(e' & I)].
    - destruct (Nat.eqb_spec i j) as [->|]; [injection E as ->; right; exists e; left; reflexivity|left; exact E].
    - right. exists e'. right. exact I. }
  intro H. destruct (G _ _ H) as [E|E]; [discriminate E|exact E].
Qed.
Lemma taken_whole : forall bd s, takes_whole bd s.
Proof.
  intros bd s. induction s as [p| |fs IH|fs IH|s IH|s IH|fs IH|c n e s IH|c s IH] using sty_ind2; intros over v b D T.
  - destruct T as (k & c & _ & DN). exact (contents_shape _ _ _ _ DN).
  - destruct T as (x & -> & _). reflexivity.
  - cbn [defaults_whole] in D. rewrite defaults_go in D. destruct T as (vs & c & -> & _ & T). exact (whole_fields fs vs (fields_whole bd fs IH vs c D T)).
  - cbn [defaults_whole] in D. rewrite defaults_go in D. destruct T as (vs & items & -> & _ & T & [L SL]). change (whole (ASeq fs) (VSeq vs) = true).
    apply whole_fields. apply Forall2_by_nth; [exact L|]. intros j f N. destruct (SL j f N) as [S1 S2]. eexists. split; [exact S1|].
    pose proof (proj1 (forallb_forall _ _) D f (nth_error_In _ _ N)) as DF. pose proof (proj1 (Forall_forall _ _) IH f (nth_error_In _ _ N)) as P.
    destruct f as [n p s]. cbn [default_whole sf_type sf_need part_whole] in *. destruct (last_of j items) as [x|] eqn:LA.
    + destruct (last_in _ _ _ LA) as (e & I). pose proof (proj1 (Forall_forall _ _) T _ I) as TK. cbn [fst snd] in TK.
      destruct (part_taken_nth bd false fs j x e TK) as (f & N' & TF). rewrite N in N'. injection N' as <-. cbn [sf_type] in TF.
      destruct (match p with Default d => whole s d | _ => true end); [|discriminate DF]. exact (P None x e DF TF).
    + destruct p as [| |d]; cbn [when_absent]; [destruct (S2 eq_refl eq_refl)|reflexivity|]. destruct (whole s d); [reflexivity|discriminate DF].
  - destruct T as (vs & es & -> & _ & T). cbn [whole]. apply forallb_forall. intros x I. clear - IH D T I. induction T as [|y e vs es T1 T IHT]; [destruct I|].
    destruct I as [->|I]; [exact (IH None x e D T1)|exact (IHT I)].
  - destruct T as (vs & es & -> & _ & T). cbn [whole]. apply forallb_forall. intros x I. clear - IH D T I. induction T as [|y e vs es T1 T IHT]; [destruct I|].
    destruct I as [->|I]; [exact (IH None x e D T1)|exact (IHT I)].
  - cbn [defaults_whole] in D. rewrite defaults_go in D. destruct T as (i & x & -> & T).
    assert (X : exists e, alt_taken bd false fs i x e) by (destruct over as [u|]; [destruct T as (k & e & ig & _ & T)|]; eexists; exact T).
    destruct X as (e & TK). clear T. cbn [whole]. revert i TK D IH. induction fs as [|[n p s] fs IHF]; intros i TK D IH; [destruct i; destruct TK as [TK _]; discriminate TK|].
    cbn [forallb default_whole] in D. apply andb_prop in D. destruct D as [D1 D2]. inversion IH as [|? ? P1 P2]; subst. destruct i as [|i]; [|exact (IHF i TK D2 P2)].
    destruct (match p with Default d => whole s d | _ => true end); [|discriminate D1]. exact (P1 None x e D1 TK).
  - cbn [taken_for] in T. cbn [whole defaults_whole] in *. destruct (e && negb (any_under s)); [destruct T as (k & e' & ig & _ & _ & T)|]; exact (IH _ _ _ D T).
  - exact (IH over v b D (proj2 T)).
Qed.

End codec.
