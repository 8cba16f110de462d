(** What pyasn1's decoder accepts may be taken for an encoding of what it returns, in the sense
    of Spec/Ber.v. *)
From Coq Require Import List String ZArith NArith Bool Lia.
From Verif Require Import Asn1.Types Py.Eval Asn1.EqbFacts Asn1.Bytes Asn1.Charset Asn1.Der Asn1.Wf Asn1.RoundTrip Asn1.RoundTrip2 Asn1.Total Asn1.Inside
  Spec.X680 Spec.X690 Spec.Octets Spec.Agree Spec.Conform Spec.Reads Spec.Ber Spec.Leaves.
Import ListNotations.
Open Scope string_scope.
Open Scope list_scope.
Open Scope N_scope.

(** A list of octets. *)
Notation octets l := (forallb is_byte l = true).

Section codec.
Context {Cdc : codec}.

(** ** Octets *)

Lemma octets_app : forall a b, octets (a ++ b) -> octets a /\ octets b.
Proof. intros a b H. rewrite forallb_app in H. apply andb_prop in H. exact H. Qed.
Lemma octets_cons : forall a b, octets (a :: b) -> a < 256 /\ octets b.
Proof. intros a b H. cbn [forallb] in H. apply andb_prop in H. destruct H as [A B]. split; [apply N.ltb_lt, A|exact B]. Qed.

Lemma num7_digits : forall s acc n r, octets s -> dec_num7 acc s = Some (n, r) ->
  exists ds, ds <> [] /\ Forall (fun d => d < 128) ds /\ s = continued ds ++ r /\ n = fold_left (fun a d => a * 128 + d) ds acc.
Proof.
  induction s as [|b s IH]; intros acc n r O H; [discriminate|]. apply octets_cons in O. destruct O as [B O].
  cbn [dec_num7] in H. cbv zeta in H. destruct (N.ltb_spec b 128) as [L|L].
  - inversion H; subst. exists [b]. split; [discriminate|]. split; [repeat constructor; exact L|]. split; [reflexivity|].
    cbn. rewrite N.mod_small by exact L. reflexivity.
  - destruct (IH _ _ _ O H) as (ds & N & F & -> & V). exists (b - 128 :: ds). split; [discriminate|]. split; [constructor; [lia|exact F]|].
    destruct ds as [|d ds]; [congruence|]. split.
    + change (continued (b - 128 :: d :: ds)) with (128 + (b - 128) :: continued (d :: ds)). cbn [app]. f_equal. lia.
    + cbn [fold_left] in *. rewrite V. do 4 f_equal.
      symmetry. apply (N.mod_unique b 128 1); lia.
Qed.

Lemma first_bits : forall b, b < 256 ->
  b = class_bits (class_of (b / 64)) + (if negb ((b / 32) mod 2 =? 0) then 32 else 0) + b mod 32.
Proof.
  assert (K : forallb (fun n => let b := N.of_nat n in
    b =? class_bits (class_of (b / 64)) + (if negb ((b / 32) mod 2 =? 0) then 32 else 0) + b mod 32) (seq 0 256) = true) by (vm_compute; reflexivity).
  intros b L. rewrite forallb_forall in K. specialize (K (N.to_nat b)). cbv beta zeta in K. rewrite N2Nat.id in K.
  apply N.eqb_eq, K, List.in_seq. lia.
Qed.
Lemma tag_identifies : forall s g r, octets s -> dec_tag s = Some (g, r) ->
  exists i, s = i ++ r /\ identifies (tcls g) (tcons g) (tnum g) i.
Proof.
  intros [|b s] g r O H; [discriminate|]. apply octets_cons in O. destruct O as [B O]. pose proof (first_bits b B) as FB.
  cbn [dec_tag] in H. cbv zeta in H. set (c := class_of (b / 64)) in *. set (k := negb ((b / 32) mod 2 =? 0)) in *.
  destruct (N.eqb_spec (b mod 32) 31) as [E|E].
  - destruct (dec_num7 0 s) as [[n s']|] eqn:D; [|discriminate]. inversion H; subst g s'. cbn [tcls tcons tnum].
    destruct (num7_digits _ _ _ _ O D) as (ds & N & F & -> & V). exists (b :: continued ds). split; [reflexivity|].
    rewrite FB, E. apply more_octets; [exact N|exact F|symmetry; exact V].
  - inversion H; subst g s. exists [b]. split; [reflexivity|]. cbn [tcls tcons tnum]. rewrite FB at 2. apply one_octet.
    pose proof (N.mod_lt b 32 ltac:(lia)). lia.
Qed.
Lemma len_measures : forall s n r, octets s -> dec_len s = Some (n, r) -> exists l, s = l ++ r /\ measures n l.
Proof.
  intros [|b s] n r O H; [discriminate|]. apply octets_cons in O. destruct O as [B O]. cbn [dec_len] in H.
  destruct (N.ltb_spec b 128) as [L|L].
  - inversion H; subst. exists [n]. split; [reflexivity|]. apply short_form. lia.
  - destruct (N.eqb_spec b 128) as [E|E]; [discriminate|]. destruct (take (b mod 128) s) as [[d s']|] eqn:D; [|discriminate].
    inversion H; subst. destruct (take_inv _ _ _ _ D) as [-> LD]. exists (b :: d). split; [reflexivity|].
    assert (M : b mod 128 = b - 128) by (symmetry; apply (N.mod_unique b 128 1); lia). rewrite M in LD.
    replace b with (128 + N.of_nat (List.length d)) by lia. apply long_form; [|lia|reflexivity].
    intros ->. cbn in LD. lia.
Qed.
Definition header (g : tag) (c b : list N) : Prop := an_item (tcls g, tnum g) (tcons g) c b.
Lemma header_item : forall s g c r, octets s -> dec_header s = Some (g, c, r) -> exists b, s = b ++ r /\ header g c b /\ octets c.
Proof.
  intros s g c r O H. unfold dec_header in H. destruct (dec_tag s) as [[g' s1]|] eqn:A; [|discriminate].
  destruct (dec_len s1) as [[n s2]|] eqn:B; [|discriminate]. destruct (take n s2) as [[c' r']|] eqn:D; [|discriminate].
  inversion H; subst g' c' r'. destruct (tag_identifies _ _ _ O A) as (i & -> & I). apply octets_app in O. destruct O as [_ O].
  destruct (len_measures _ _ _ O B) as (l & -> & L). apply octets_app in O. destruct O as [_ O].
  destruct (take_inv _ _ _ _ D) as [-> <-]. apply octets_app in O. destruct O as [O _].
  exists (i ++ l ++ c). split; [rewrite <- !app_assoc; reflexivity|]. split; [|exact O]. exists i, l. split; [exact I|]. split; [exact L|reflexivity].
Qed.

(** ** Contents *)

Lemma int_denotes : forall c, octets c -> let m := (256 ^ Z.of_nat (List.length c))%Z in
  (dec_int c mod m = Z.of_N (value_of 256 c) /\ - m <= 2 * dec_int c < m)%Z.
Proof.
  intros [|b c] O m; [subst m; cbn; lia|]. pose proof (undigits_bound _ O) as UB. apply octets_cons in O. destruct O as [B O].
  pose proof (undigits_cons b c) as UC. pose proof (undigits_bound _ O) as UB'.
  change (value_of 256 (b :: c)) with (undigits 256 (b :: c)). unfold dec_int. set (u := undigits 256 (b :: c)) in *.
  assert (M : m = Z.of_N (256 ^ N.of_nat (List.length (b :: c)))).
  { subst m. rewrite N2Z.inj_pow, nat_N_Z. reflexivity. }
  assert (MQ : 256 ^ N.of_nat (List.length (b :: c)) = 256 * 256 ^ N.of_nat (List.length c)).
  { cbn [List.length]. rewrite Nat2N.inj_succ, N.pow_succ_r'. reflexivity. }
  set (q := 256 ^ N.of_nat (List.length c)) in *. clearbody q u. change (Z.of_nat (List.length (b :: c))) with (Z.of_nat (List.length (b :: c))).
  fold m. clearbody m. rewrite MQ in *. clear MQ. subst m.
  destruct (N.ltb_spec b 128) as [L|L].
  - assert (u < 128 * q) by nia. split; [apply Z.mod_small; lia|lia].
  - assert (128 * q <= u) by nia. split; [|lia].
    symmetry. apply (Z.mod_unique _ _ (-1)); lia.
Qed.

Lemma digits_undigits : forall b l, 2 <= b -> Forall (fun d => d < b) l -> (forall d l', l = d :: l' -> d <> 0) -> digits b (undigits b l) = l.
Proof.
  intros b l B. induction l as [|d l IH] using rev_ind; intros F H; [reflexivity|].
  apply Forall_app in F. destruct F as [F1 F2]. inversion F2; subst.
  rewrite undigits_snoc.
  assert (NZ : undigits b l * b + d <> 0).
  { destruct l as [|e l]; [cbn; specialize (H d [] eq_refl); lia|].
    assert (IHl : digits b (undigits b (e :: l)) = e :: l) by (apply IH; [exact F1|intros d' l' E; inversion E; subst; exact (H d' (l' ++ [d]) eq_refl)]).
    destruct (N.eq_dec (undigits b (e :: l)) 0) as [E|E]; [rewrite E in IHl; discriminate IHl|]. nia. }
  rewrite digits_step by assumption.
  assert (D1 : (undigits b l * b + d) / b = undigits b l) by (symmetry; apply (N.div_unique _ b _ d); lia).
  assert (D2 : (undigits b l * b + d) mod b = d) by (symmetry; apply (N.mod_unique _ b (undigits b l)); lia).
  rewrite D1, D2, IH; [reflexivity|exact F1|]. intros d' l' E. subst l. exact (H d' (l' ++ [d]) eq_refl).
Qed.
Lemma cont_continued : forall l, cont l = continued l.
Proof. induction l as [|d [|e l] IH]; [reflexivity|reflexivity|]. change (128 + d :: cont (e :: l) = 128 + d :: continued (e :: l)). rewrite IH. reflexivity. Qed.
Lemma num7_minimal : forall s n r b s', octets s -> s = b :: s' -> b <> 128 -> dec_num7 0 s = Some (n, r) -> s = enc_num7 n ++ r.
Proof.
  intros s n r b s' O E NB H. destruct (num7_digits _ _ _ _ O H) as (ds & N & F & -> & V). change (n = undigits 128 ds) in V.
  f_equal. unfold enc_num7. destruct ds as [|d ds]; [congruence|].
  assert (HD : ds <> [] -> d <> 0).
  { intros ND ->. destruct ds as [|e ds]; [congruence|]. change (continued (0 :: e :: ds)) with (128 :: continued (e :: ds)) in E. inversion E; congruence. }
  destruct (N.eqb_spec n 0) as [Z|Z].
  - destruct ds as [|e ds].
    + cbn in V. subst n. cbn. f_equal. lia.
    + exfalso. assert (DU : digits 128 (undigits 128 (d :: e :: ds)) = d :: e :: ds).
      { apply digits_undigits; [lia|exact F|]. intros d' l' E'. inversion E'; subst. apply HD. discriminate. }
      rewrite <- V, Z in DU. discriminate DU.
  - transitivity (continued (digits 128 n)); [|symmetry; apply cont_continued]. f_equal. rewrite V. symmetry. apply digits_undigits; [lia|exact F|].
    intros d' l' E'. inversion E'; subst d' l'. destruct ds as [|e ds]; [|apply HD; discriminate].
    cbn in V. lia.
Qed.
Lemma arcs_minimal : forall f s l, octets s -> dec_arcs f s = Some l -> s = flat_map enc_num7 l.
Proof.
  induction f as [|f IH]; intros [|b s] l O H; cbn [dec_arcs] in H; try discriminate; try (inversion H; reflexivity).
  destruct (N.eqb_spec b 128) as [E|E]; [discriminate|]. destruct (dec_num7 0 (b :: s)) as [[n r]|] eqn:D; [|discriminate].
  destruct (dec_arcs f r) as [l'|] eqn:A; [|discriminate]. inversion H; subst l.
  pose proof (num7_minimal _ _ _ b s O eq_refl E D) as S. rewrite S in *. apply octets_app in O. destruct O as [_ O].
  cbn [flat_map]. rewrite <- (IH _ _ O A). reflexivity.
Qed.
Lemma oid_denotes : forall c a, octets c -> dec_oid c = Some a -> object_identifier a = Some c /\ arcs_ok a = true.
Proof.
  intros c a O H. unfold dec_oid in H. destruct c as [|b c]; [discriminate|].
  destruct (dec_arcs _ (b :: c)) as [[|x l]|] eqn:A; try discriminate. pose proof (arcs_minimal _ _ _ O A) as S.
  assert (FM : flat_map enc_num7 (x :: l) = flat_map base128 (x :: l)) by (apply flat_map_ext_in; intros; apply num7_spec).
  rewrite FM in S. clear FM A.
  destruct (N.leb_spec x 39) as [L|L]; [|destruct (N.leb_spec x 79) as [L'|L']]; inversion H; subst a; cbn [object_identifier arcs_ok];
    (split; [rewrite S; do 2 f_equal; f_equal; lia|]).
  - apply N.leb_le in L. rewrite L. reflexivity.
  - cbn. apply N.leb_le. lia.
  - reflexivity.
Qed.

Lemma bits_denote : forall c l, dec_bits c = Some l ->
  exists u o unused, c = u :: o /\ u <= 7 /\ N.of_nat (List.length unused) = u /\ flat_map bits_of o = l ++ unused.
Proof.
  intros [|p o] l H; [discriminate|]. cbn [dec_bits] in H. destruct (N.ltb_spec 7 p) as [L|L]; [discriminate|]. cbv zeta in H.
  destruct (N.ltb_spec (N.of_nat (List.length (flat_map byte_bits o))) p) as [L'|L']; [discriminate|].
  inversion H; subst l. change (flat_map byte_bits o) with (flat_map bits_of o) in *. set (w := flat_map bits_of o) in *.
  exists p, o, (skipn (List.length w - N.to_nat p) w). split; [reflexivity|]. split; [lia|]. split.
  - rewrite skipn_length. lia.
  - symmetry. apply firstn_skipn.
Qed.

Ltac nb H := repeat match type of H with
  | context [?a <? ?b] => let K := fresh "L" in destruct (N.ltb_spec a b) as [K|K]
  end.
Lemma tail_range : forall b, tail_byte b = true -> 128 <= b < 192.
Proof. intros b H. unfold tail_byte in H. apply andb_prop in H. destruct H as [A B]. apply N.leb_le in A. apply N.ltb_lt in B. lia. Qed.
Lemma surrogates : forall w d, 55296 <= w < 56320 -> 56320 <= d < 57344 -> exists c, c = 65536 + (w - 55296) * 1024 + (d - 56320) /\
  65536 <= c < 1114112 /\ (c - 65536) / 1024 = w - 55296 /\ (c - 65536) mod 1024 = d - 56320.
Proof.
  intros w d W D. exists (65536 + (w - 55296) * 1024 + (d - 56320)). split; [reflexivity|]. split; [lia|]. split; symmetry.
  - apply (N.div_unique _ 1024 _ (d - 56320)); lia.
  - apply (N.mod_unique _ 1024 (w - 55296)); lia.
Qed.
Lemma word_parts : forall a b, a < 256 -> b < 256 -> exists w, w = a * 256 + b /\ w < 65536 /\ w / 256 = a /\ w mod 256 = b.
Proof.
  intros a b A B. exists (a * 256 + b). split; [reflexivity|]. split; [lia|].
  split; symmetry; [apply (N.div_unique _ 256 _ b)|apply (N.mod_unique _ 256 a)]; lia.
Qed.
Lemma char_denotes : forall cs s c r, octets s -> dec_char cs s = Some (c, r) -> s = enc_char cs c ++ r /\ encodable cs c = true.
Proof.
  intros cs s c r O H. destruct cs.
  - destruct s as [|b s]; [discriminate|]. cbn [dec_char] in H. destruct (N.ltb_spec b 128) as [L|L]; [|discriminate].
    inversion H; subst. split; [reflexivity|]. apply N.ltb_lt, L.
  - destruct s as [|b s]; [discriminate|]. apply octets_cons in O. cbn [dec_char] in H. inversion H; subst. split; [reflexivity|]. apply N.ltb_lt, O.
  - destruct s as [|b s]; [discriminate|]. cbn [dec_char] in H. destruct (N.ltb_spec b 128) as [L|L].
    { inversion H; subst. cbn [enc_char encodable]. destruct (N.ltb_spec c 128); [|lia]. split; [reflexivity|]. apply scalar_intro. lia. }
    destruct (N.ltb_spec b 194) as [L1|L1]; [discriminate|]. destruct (N.ltb_spec b 224) as [L2|L2].
    { destruct s as [|x s]; [discriminate|]. destruct (tail_byte x) eqn:TX; [|discriminate]. apply tail_range in TX. inversion H; subst. clear H.
      set (c := (b - 192) * 64 + (x - 128)). cbn [enc_char encodable]. assert (128 <= c < 2048) by (subst c; lia).
      destruct (N.ltb_spec c 128); [lia|]. destruct (N.ltb_spec c 2048); [|lia]. split; [|apply scalar_intro; lia].
      assert (D : c / 64 = b - 192) by (symmetry; apply (N.div_unique c 64 _ (x - 128)); subst c; lia).
      assert (M : c mod 64 = x - 128) by (symmetry; apply (N.mod_unique c 64 (b - 192)); subst c; lia).
      rewrite D, M. cbn [app]. f_equal; [lia|]. f_equal. lia. }
    destruct (N.ltb_spec b 240) as [L3|L3].
    { destruct s as [|x [|y s]]; try discriminate. cbv zeta in H.
      destruct (_ && _) eqn:K in H; [|discriminate]. apply andb_prop in K. destruct K as [K SC]. apply andb_prop in K. destruct K as [K LO].
      apply andb_prop in K. destruct K as [TX TY]. apply tail_range in TX, TY. apply N.leb_le in LO. inversion H; subst. clear H.
      set (c := (b - 224) * 4096 + (x - 128) * 64 + (y - 128)) in *. cbn [enc_char encodable]. assert (c < 65536) by (subst c; lia).
      destruct (N.ltb_spec c 128); [lia|]. destruct (N.ltb_spec c 2048); [lia|]. destruct (N.ltb_spec c 65536); [|lia]. split; [|exact SC].
      assert (D : c / 4096 = b - 224) by (symmetry; apply (N.div_unique c 4096 _ ((x - 128) * 64 + (y - 128))); subst c; lia).
      assert (E : c / 64 = (b - 224) * 64 + (x - 128)) by (symmetry; apply (N.div_unique c 64 _ (y - 128)); subst c; lia).
      assert (E' : (c / 64) mod 64 = x - 128) by (rewrite E; symmetry; apply (N.mod_unique _ 64 (b - 224)); lia).
      assert (M : c mod 64 = y - 128) by (symmetry; apply (N.mod_unique c 64 ((b - 224) * 64 + (x - 128))); subst c; lia).
      rewrite D, E', M. cbn [app]. f_equal; [lia|]. f_equal; [lia|]. f_equal. lia. }
    destruct (N.ltb_spec b 245) as [L4|L4]; [|discriminate].
    destruct s as [|x [|y [|z s]]]; try discriminate. cbv zeta in H.
    destruct (_ && _) eqn:K in H; [|discriminate]. apply andb_prop in K. destruct K as [K HI]. apply andb_prop in K. destruct K as [K LO].
    apply andb_prop in K. destruct K as [K TZ]. apply andb_prop in K. destruct K as [TX TY]. apply tail_range in TX, TY, TZ.
    apply N.leb_le in LO. apply N.ltb_lt in HI. inversion H; subst. clear H.
    set (c := (b - 240) * 262144 + (x - 128) * 4096 + (y - 128) * 64 + (z - 128)) in *. cbn [enc_char encodable].
    destruct (N.ltb_spec c 128); [lia|]. destruct (N.ltb_spec c 2048); [lia|]. destruct (N.ltb_spec c 65536); [lia|]. split; [|apply scalar_intro; lia].
    assert (D : c / 262144 = b - 240) by (symmetry; apply (N.div_unique c 262144 _ ((x - 128) * 4096 + (y - 128) * 64 + (z - 128))); subst c; lia).
    assert (E : c / 4096 = (b - 240) * 64 + (x - 128)) by (symmetry; apply (N.div_unique c 4096 _ ((y - 128) * 64 + (z - 128))); subst c; lia).
    assert (E' : (c / 4096) mod 64 = x - 128) by (rewrite E; symmetry; apply (N.mod_unique _ 64 (b - 240)); lia).
    assert (G : c / 64 = (b - 240) * 4096 + (x - 128) * 64 + (y - 128)) by (symmetry; apply (N.div_unique c 64 _ (z - 128)); subst c; lia).
    assert (G' : (c / 64) mod 64 = y - 128) by (rewrite G; symmetry; apply (N.mod_unique _ 64 ((b - 240) * 64 + (x - 128))); lia).
    assert (M : c mod 64 = z - 128) by (symmetry; apply (N.mod_unique c 64 ((b - 240) * 4096 + (x - 128) * 64 + (y - 128))); subst c; lia).
    rewrite D, E', G', M. cbn [app]. f_equal; [lia|]. f_equal; [lia|]. f_equal; [lia|]. f_equal. lia.
  - destruct s as [|a [|b s]]; try discriminate. apply octets_cons in O. destruct O as [BA O]. apply octets_cons in O. destruct O as [BB O].
    cbn [dec_char] in H. cbv zeta in H. destruct (word_parts a b BA BB) as (w & EW & LW & WD & WM). rewrite <- EW in H.
    destruct (N.leb_spec 55296 w) as [LA|LA]; cbn [andb] in H.
    2:{ destruct (N.leb_spec 56320 w) as [LC|LC]; [lia|]. cbn [andb] in H. inversion H; subst c r. cbn [enc_char encodable].
        destruct (N.ltb_spec w 65536); [|lia]. rewrite WD, WM. split; [reflexivity|apply scalar_intro; lia]. }
    destruct (N.ltb_spec w 56320) as [LB|LB]; cbn [andb] in H.
    { destruct s as [|a' [|b' s]]; try discriminate. apply octets_cons in O. destruct O as [BA' O]. apply octets_cons in O. destruct O as [BB' O].
      destruct (word_parts a' b' BA' BB') as (d & ED & LDD & DD & DM). rewrite <- ED in H.
      destruct (N.leb_spec 56320 d) as [LC|LC]; [|discriminate]. destruct (N.ltb_spec d 57344) as [LD|LD]; [|discriminate].
      cbn [andb] in H. destruct (surrogates w d (conj LA LB) (conj LC LD)) as (c' & EC & RC & D1 & D2). rewrite <- EC in H. clear EC.
      inversion H; subst c' r. clear H. cbn [enc_char encodable].
      destruct (N.ltb_spec c 65536); [lia|]. split; [|apply scalar_intro; lia]. cbv zeta. rewrite D1, D2.
      replace (55296 + (w - 55296)) with w by (clear - LA; lia). replace (56320 + (d - 56320)) with d by (clear - LC; lia).
      rewrite WD, WM, DD, DM. reflexivity. }
    destruct (N.leb_spec 56320 w) as [LC|LC]; [|lia]. destruct (N.ltb_spec w 57344) as [LD|LD]; [discriminate|]. cbn [andb] in H.
    inversion H; subst c r. cbn [enc_char encodable]. destruct (N.ltb_spec w 65536); [|lia]. rewrite WD, WM. split; [reflexivity|apply scalar_intro; lia].
  - destruct s as [|a [|b [|d [|e s]]]]; try discriminate. apply octets_cons in O. destruct O as [BA O]. apply octets_cons in O. destruct O as [BB O].
    apply octets_cons in O. destruct O as [BD O]. apply octets_cons in O. destruct O as [BE O].
    cbn [dec_char] in H. cbv zeta in H. destruct (scalar _) eqn:SC in H; [|discriminate]. inversion H; subst c r.
    set (w := a * 16777216 + b * 65536 + d * 256 + e) in *. split; [|exact SC]. cbn [enc_char].
    assert (D1 : w / 16777216 = a) by (symmetry; apply (N.div_unique w 16777216 _ (b * 65536 + d * 256 + e)); subst w; lia).
    assert (D2 : w / 65536 = a * 256 + b) by (symmetry; apply (N.div_unique w 65536 _ (d * 256 + e)); subst w; lia).
    assert (D2' : (w / 65536) mod 256 = b) by (rewrite D2; symmetry; apply (N.mod_unique _ 256 a); lia).
    assert (D3 : w / 256 = a * 65536 + b * 256 + d) by (symmetry; apply (N.div_unique w 256 _ e); subst w; lia).
    assert (D3' : (w / 256) mod 256 = d) by (rewrite D3; symmetry; apply (N.mod_unique _ 256 (a * 256 + b)); lia).
    assert (D4 : w mod 256 = e) by (symmetry; apply (N.mod_unique w 256 (a * 65536 + b * 256 + d)); subst w; lia).
    rewrite D1, D2', D3', D4. reflexivity.
Qed.
Lemma text_denotes_f : forall f cs s t, octets s -> dec_text_f f cs s = Some t -> s = flat_map (enc_char cs) t /\ forallb (encodable cs) t = true.
Proof.
  induction f as [|f IH]; intros cs [|b s] t O H; cbn [dec_text_f] in H; try discriminate; try (inversion H; split; reflexivity).
  destruct (dec_char cs (b :: s)) as [[c r]|] eqn:D; [|discriminate]. destruct (dec_text_f f cs r) as [l|] eqn:E; [|discriminate].
  inversion H; subst t. destruct (char_denotes _ _ _ _ O D) as [S EN]. rewrite S in O |- *. apply octets_app in O. destruct O as [_ O].
  destruct (IH _ _ _ O E) as [-> F]. cbn [flat_map forallb]. rewrite EN, F. split; reflexivity.
Qed.
Lemma scalar_unicode : forall c, scalar c = true -> unicode c = true /\ c < 1114112.
Proof.
  intros c H. apply scalar_cases in H. split; [|lia]. unfold unicode, between. apply orb_true_iff. rewrite andb_true_iff, !N.leb_le. lia.
Qed.
Lemma text_denotes : forall k c t, octets c -> dec_text (charset_of k) c = Some t -> c = text_octets k t /\ forallb (character_ok k) t = true.
Proof.
  intros k c t O H. destruct (text_denotes_f _ _ _ _ O H) as [-> F]. rewrite forallb_forall in F. split.
  - assert (G : forall g, (forall x, In x t -> enc_char (charset_of k) x = g x) -> flat_map (enc_char (charset_of k)) t = flat_map g t)
      by (intros g E; apply flat_map_ext_in, E).
    destruct k; unfold text_octets, characters; apply G; intros x I; pose proof (F x I) as E; cbn [charset_of encodable enc_char] in *; try reflexivity;
      apply scalar_unicode in E; destruct E as [_ E].
    + unfold utf8. destruct (N.ltb_spec x 128), (N.leb_spec x 127); try lia; [reflexivity|].
      destruct (N.ltb_spec x 2048), (N.leb_spec x 2047); try lia; [reflexivity|].
      destruct (N.ltb_spec x 65536), (N.leb_spec x 65535); try lia; reflexivity.
    + rewrite be4 by lia. reflexivity.
    + unfold utf16. destruct (N.ltb_spec x 65536), (N.leb_spec x 65535); try lia; [rewrite be2 by lia; reflexivity|]. cbv zeta.
      pose proof (N.mod_lt (x - 65536) 1024 ltac:(lia)). assert ((x - 65536) / 1024 < 1024) by (apply N.div_lt_upper_bound; lia).
      rewrite !be2 by lia. reflexivity.
  - apply forallb_forall. intros x I. pose proof (F x I) as E. destruct k; cbn [charset_of encodable character_ok] in *;
      try (apply N.leb_le; apply N.ltb_lt in E; lia); apply scalar_unicode in E; apply E.
Qed.

Lemma simple_not : forall ts, simple ts = true -> constructed ts = true -> False.
Proof. intros [|t ts] A B; [discriminate|]. cbn in *. rewrite B in A. discriminate. Qed.
Lemma of_opt_ok : forall A (o : option A) x, of_opt o = Ok x -> o = Some x.
Proof. intros A [y|] x H; inversion H; reflexivity. Qed.
(** Segments. *)
Lemma segments_in : forall f n c l, octets c -> segments f n c = Ok l -> in_segments n l c /\ octets (List.concat l).
Proof.
  induction f as [|f IH]; intros n [|b c] l O H; cbn [segments] in H; try discriminate H; try (injection H as <-; split; [exists []; split; [constructor|reflexivity]|reflexivity]).
  destruct (dec_header (b :: c)) as [[[g x] rest]|] eqn:D; [|discriminate H]. destruct (_ || _) eqn:TG in H; [|discriminate H].
  apply rbind_ok in H. destruct H as (r & K & H). injection H as <-. destruct (header_item _ _ _ _ O D) as (e & E & HD & OX).
  rewrite E in O |- *. apply octets_app in O. destruct O as [_ O]. destruct (IH _ _ _ O K) as [(es & F & ->) OR]. split.
  - exists (e :: es). split; [|reflexivity]. constructor; [|exact F]. exists (tcls g, tnum g), (tcons g). split; [exact HD|].
    apply orb_prop in TG. destruct TG as [TG|TG].
    + left. unfold tags_eqb in TG. cbn [list_eqb] in TG. rewrite andb_true_r in TG. unfold tag_eqb in TG. apply andb_prop in TG. destruct TG as [T1 T2].
      cbn [tcls tnum] in T1, T2. apply N.eqb_eq in T2. rewrite T2. destruct (tcls g); try discriminate T1; reflexivity.
    + right. apply andb_prop in TG. destruct TG as [T1 T2]. split; [exact T1|]. cbn [fst]. intro Q. rewrite Q in T2. discriminate T2.
  - cbn [List.concat]. rewrite forallb_app, OX, OR. reflexivity.
Qed.
Lemma joined_denote : forall e l b, joined_bits l = Ok b -> exists ls, Forall2 (fun x l => denotes (PBits e) (VBits l) x) l ls /\ b = List.concat ls.
Proof.
  intros e. induction l as [|x l IH]; intros b H; cbn [joined_bits] in H; [injection H as <-; exists []; split; [constructor|reflexivity]|].
  apply rbind_ok in H. destruct H as (a & D & H). apply rbind_ok in H. destruct H as (r & K & H). injection H as <-. apply of_opt_ok in D.
  destruct (IH _ K) as (ls & F & ->). exists (a :: ls). split; [|reflexivity]. constructor; [exact (bits_denote _ _ D)|exact F].
Qed.
Lemma all_zero : forall c, octets c -> negb (dec_int c =? 0)%Z = existsb (fun o => negb (o =? 0)) c.
Proof.
  intros c O. destruct (int_denotes c O) as [D [E1 E2]]. set (m := (256 ^ Z.of_nat (List.length c))%Z) in *. assert (P : (0 < m)%Z) by (apply Z.pow_pos_nonneg; lia).
  assert (Z0 : (dec_int c = 0)%Z <-> value_of 256 c = 0).
  { split; intro H.
    - rewrite H, Z.mod_0_l in D by lia. lia.
    - rewrite H in D. change (Z.of_N 0) with 0%Z in D. apply Z.mod_divide in D; [|lia]. destruct D as [q Q]. assert (q = 0)%Z by nia. subst q. lia. }
  assert (V : forall c a, fold_left (fun a d => a * 256 + d) c a = 0 <-> a = 0 /\ existsb (fun o => negb (o =? 0)) c = false).
  { clear. induction c as [|x c IH]; intro a; cbn [fold_left existsb]; [tauto|]. rewrite IH, orb_false_iff, negb_false_iff, N.eqb_eq. split; [intros [A B]|intros [A [B C]]]; repeat split; try assumption; lia. }
  specialize (V c 0). fold (value_of 256 c) in V. destruct (existsb (fun o => negb (o =? 0)) c) eqn:X.
  - destruct (Z.eqb_spec (dec_int c) 0) as [Q|Q]; [|reflexivity]. apply Z0, V in Q. destruct Q as [_ Q]. discriminate Q.
  - destruct (Z.eqb_spec (dec_int c) 0) as [Q|Q]; [reflexivity|]. exfalso. apply Q, Z0, V. split; reflexivity.
Qed.
Lemma string_universal : forall k, string_tag k = universal (PStr k).
Proof. intros []; reflexivity. Qed.
Lemma simple_cons : forall g ts, simple (g :: ts) = negb (tcons g).
Proof. reflexivity. Qed.
Lemma prim_denotes : forall p k m g ts tlv c v, octets c -> same_prim p k = true -> dec_prim k m (g :: ts) tlv c = Ok v ->
  if tcons g then denotes_parted p v c else denotes p v c.
Proof.
  intros p k m g ts tlv c v O S H.
  destruct p, k; try discriminate S; cbn [dec_prim] in H; rewrite simple_cons in H; destruct (tcons g); cbn [negb] in H; try discriminate H; cbn [denotes denotes_parted].
  - destruct lax; [discriminate H|]. destruct c as [|b [|]]; try discriminate. destruct (N.eqb_spec b 255) as [->|]; [inversion H; subst; split; reflexivity|].
    destruct (N.eqb_spec b 0) as [->|]; [inversion H; subst; split; reflexivity|discriminate].
  - pose proof (all_zero c O) as AZ. destruct c as [|b [|b' c]].
    + destruct lax eqn:LX; [|discriminate H]. injection H as <-. right. split; [reflexivity|exact AZ].
    + destruct (N.eqb_spec b 255) as [->|]; [inversion H; subst; left; reflexivity|]. destruct (N.eqb_spec b 0) as [->|Z]; [inversion H; subst; left; reflexivity|].
      destruct lax; [|discriminate H]. injection H as <-. right. split; [reflexivity|]. cbn [existsb]. destruct (N.eqb_spec b 0); [contradiction|reflexivity].
    + destruct lax; [|discriminate H]. injection H as <-. right. split; [reflexivity|exact AZ].
  - inversion H; subst v. exact (int_denotes c O).
  - inversion H; subst v. exact (int_denotes c O).
  - destruct c as [|u c]; [discriminate H|]. destruct lax; [|discriminate H]. apply rbind_ok in H. destruct H as (xs & SG & H). apply rbind_ok in H.
    destruct H as (b & J & H). injection H as <-. split; [reflexivity|]. split; [discriminate|]. destruct (joined_denote l _ _ J) as (ls & F & ->).
    exists xs, ls. split; [exact (proj1 (segments_in _ _ _ _ O SG))|]. split; [exact F|reflexivity].
  - assert (K : exists l', v = VBits l' /\ dec_bits c = Some l').
    { destruct c as [|u [|o c]]; try discriminate.
      - destruct (N.eqb_spec u 0) as [->|]; [|destruct (7 <? u); discriminate]. inversion H; subst. exists []. split; reflexivity.
      - apply rbind_ok in H. destruct H as (l' & E & H). apply of_opt_ok in E. exists l'. split; [congruence|exact E]. }
    destruct K as (l' & -> & D). exact (bits_denote _ _ D).
  - destruct lax; [|discriminate H]. apply rbind_ok in H. destruct H as (xs & SG & H). injection H as <-. split; [reflexivity|].
    exists xs. split; [exact (proj1 (segments_in _ _ _ _ O SG))|reflexivity].
  - inversion H; subst v. reflexivity.
  - destruct c; [|discriminate]. inversion H; subst v. reflexivity.
  - apply rbind_ok in H. destruct H as (a & E & H). apply of_opt_ok in E. assert (v = VOid a) by congruence. subst v. exact (oid_denotes _ _ O E).
  - cbn [same_prim] in S. apply prim_eqb_sound in S. injection S as S. rewrite <- S in H. clear S.
    apply rbind_ok in H. destruct H as (xs & SG & H). apply rbind_ok in H. destruct H as (t & E & H). apply of_opt_ok in E. injection H as <-.
    destruct (segments_in _ _ _ _ O SG) as [IN OX]. exists xs. split; [rewrite <- string_universal; exact IN|exact (text_denotes _ _ _ OX E)].
  - cbn [same_prim] in S. apply prim_eqb_sound in S. injection S as S. rewrite <- S in H. clear S.
    apply rbind_ok in H. destruct H as (t & E & H). apply of_opt_ok in E. assert (v = VText t) by congruence. subst v. exact (text_denotes _ _ _ O E).
Qed.

(** ** Headers *)

(** [b]: an item that begins with headers [ts] (innermost first) around contents [c]; octets
    after an inner item are left out. *)
Inductive opens : list tag -> list N -> list N -> Prop :=
| opens_one : forall g c b, header g c b -> opens [g] c b
| opens_in : forall g c inner junk ts b, opens ts (inner ++ junk) b -> constructed ts = true -> header g c inner -> opens (g :: ts) c b.

Lemma descend_opens : forall f accept ts s ts' tlv c rest, octets s -> descend f accept ts s = Ok (ts', tlv, c, rest) ->
  exists b, s = b ++ rest /\ accept ts' = true /\ octets c /\
    (forall B, (ts = [] /\ B = b) \/ (opens ts s B /\ constructed ts = true) -> opens ts' c B).
Proof.
  induction f as [|f IH]; intros accept ts s ts' tlv c rest O H; [discriminate|]. cbn [descend] in H.
  destruct (dec_header s) as [[[g c1] r1]|] eqn:D; [|discriminate]. cbv zeta in H.
  destruct (header_item _ _ _ _ O D) as (b1 & -> & HD & OC).
  assert (ST : forall B, (ts = [] /\ B = b1) \/ (opens ts (b1 ++ r1) B /\ constructed ts = true) -> opens (g :: ts) c1 B).
  { intros B [[-> ->]|[A C]]; [apply opens_one, HD|exact (opens_in g c1 b1 r1 ts B A C HD)]. }
  destruct (accept (g :: ts)) eqn:AC.
  - inversion H; subst. exists b1. split; [reflexivity|]. split; [exact AC|]. split; [exact OC|exact ST].
  - destruct (tcons g && _) eqn:K in H; [|discriminate]. apply andb_prop in K. destruct K as [K _].
    apply rbind_ok in H. destruct H as ([[[ts2 tlv2] c2] r2] & E & H). inversion H; subst.
    destruct (IH _ _ _ _ _ _ _ OC E) as (b2 & _ & A2 & O2 & S2). exists b1. split; [reflexivity|]. split; [exact A2|]. split; [exact O2|].
    intros B W. apply S2. right. split; [exact (ST B W)|exact K].
Qed.
Lemma descend_first : forall f M s ts tlv c rest, dflt M = true -> descend f (accepts M) [] s = Ok (ts, tlv, c, rest) -> s = tlv ++ rest /\ exists g, ts = [g].
Proof.
  intros [|f] M s ts tlv c rest DF H; [discriminate|]. cbn [descend] in H. destruct (dec_header s) as [[[g c1] r1]|] eqn:D; [|discriminate].
  cbv zeta in H. destruct (accepts M [g]) eqn:AC.
  - inversion H; subst. split; [|exists g; reflexivity]. apply dec_header_inv in D. destruct D as (h & -> & _). rewrite app_assoc.
    rewrite (app_length (h ++ c)). replace (_ + _ - _)%nat with (List.length (h ++ c)) by lia. rewrite firstn_app, Nat.sub_diag, firstn_all. cbn [firstn].
    rewrite app_nil_r. reflexivity.
  - exfalso. unfold accepts in AC. rewrite DF in AC. apply orb_false_iff in AC. destruct AC as [_ AC]. cbn [andb] in AC. apply negb_false_iff in AC.
    unfold eoo, tags_eqb in AC. cbn [list_eqb] in AC. rewrite andb_true_r in AC. unfold tag_eqb in AC. apply andb_prop in AC. destruct AC as [AC _].
    cbn [tcls] in AC. rewrite AC, andb_false_r in H. discriminate.
Qed.
Definition fits (M : tmap) (ts : list tag) (tlv b : list N) : Prop := dflt M = true -> tlv = b /\ exists g, ts = [g].
Lemma item_opens : forall M s ts tlv c rest, octets s -> item (accepts M) s = Ok (ts, tlv, c, rest) ->
  exists b, s = b ++ rest /\ opens ts c b /\ octets c /\ accepts M ts = true /\ fits M ts tlv b.
Proof.
  intros M s ts tlv c rest O H. unfold item in H. destruct (descend_opens _ _ _ _ _ _ _ _ O H) as (b & E & A & OC & ST).
  exists b. split; [exact E|]. split; [apply ST; left; split; reflexivity|]. split; [exact OC|]. split; [exact A|].
  intro DF. destruct (descend_first _ _ _ _ _ _ _ DF H) as [E' G]. split; [|exact G]. rewrite E in E'. apply app_inv_tail in E'. congruence.
Qed.

(** ** Components *)

(** The component's value decoder returns values related to the item. *)
Definition val_sound (R : aval -> list N -> Prop) (k : comp) : Prop :=
  forall ts tlv c b v, accepts (c_map k) ts = true -> opens ts c b -> octets c -> fits (c_map k) ts tlv b -> c_val k ts tlv c = Ok v -> R v b.
Lemma dec_one_sound : forall R k s v rest, val_sound R k -> octets s -> dec_one k s = Ok (v, rest) -> exists b, s = b ++ rest /\ R v b.
Proof.
  intros R k s v rest VS O H. unfold dec_one in H. destruct (tok (c_map k)); [|discriminate].
  apply rbind_ok in H. destruct H as ([[[ts tlv] c] r] & I & H). apply rbind_ok in H. destruct H as (v' & V & H). inversion H; subst.
  destruct (item_opens _ _ _ _ _ _ O I) as (b & E & OP & OC & A & F). exists b. split; [exact E|]. exact (VS _ _ _ _ _ A OP OC F V).
Qed.
Lemma choose_accepts : forall cs ts i k, choose cs ts = Ok (i, k) -> accepts (tmap_union (map c_map cs)) ts = true ->
  nth_error cs i = Some k /\ accepts (c_map k) ts = true /\ (dflt (c_map k) = true -> dflt (tmap_union (map c_map cs)) = true).
Proof.
  intros cs ts i k H A. pose proof (choose_in _ _ _ _ H) as N. split; [exact N|]. pose proof (nth_error_In _ _ N) as IN.
  assert (DD : dflt (c_map k) = true -> dflt (tmap_union (map c_map cs)) = true).
  { intro D. cbn [tmap_union dflt]. apply existsb_exists. exists (c_map k). split; [apply in_map, IN|exact D]. }
  split; [|exact DD]. unfold choose in H.
  assert (FK : forall l n i k, find_key n l ts = Some (i, k) -> mem_tags ts (keys (c_map k)) = true).
  { induction l as [|x l IH]; intros n i0 k0 E; [discriminate|]. cbn [find_key] in E. destruct (mem_tags ts (keys (c_map x))) eqn:M; [|exact (IH _ _ _ E)].
    inversion E; subst. exact M. }
  assert (FN : forall l n, find_key n l ts = None -> mem_tags ts (flat_map keys (map c_map l)) = false).
  { induction l as [|x l IH]; intros n E; [reflexivity|]. cbn [find_key] in E. destruct (mem_tags ts (keys (c_map x))) eqn:M; [discriminate|].
    cbn [map flat_map]. unfold mem_tags in *. rewrite existsb_app, M. exact (IH _ E). }
  assert (FD : forall l n i k, find_dflt n l = Some (i, k) -> dflt (c_map k) = true).
  { induction l as [|x l IH]; intros n i0 k0 E; [discriminate|]. cbn [find_dflt] in E. destruct (dflt (c_map x)) eqn:M; [|exact (IH _ _ _ E)].
    inversion E; subst. exact M. }
  destruct (find_key 0 cs ts) as [[j c]|] eqn:E.
  - inversion H; subst. unfold accepts. rewrite (FK _ _ _ _ E). reflexivity.
  - destruct (find_dflt 0 cs) as [[j c]|] eqn:E2; [|discriminate]. destruct (c_any c); [|discriminate]. inversion H; subst.
    unfold accepts in *. cbn [tmap_union keys dflt] in A. rewrite (FN _ _ E) in A. cbn [orb] in A. apply andb_prop in A. destruct A as [_ A].
    rewrite (FD _ _ _ _ E2), A. apply orb_true_r.
Qed.
Lemma dec_run_sound : forall (R : nat -> aval -> list N -> Prop) cs s i v rest, (forall j k, nth_error cs j = Some k -> val_sound (R j) k) ->
  octets s -> dec_run cs s = Ok (i, v, rest) -> exists b, s = b ++ rest /\ R i v b.
Proof.
  intros R cs s i v rest VS O H. unfold dec_run in H. destruct (tok _); [|discriminate].
  apply rbind_ok in H. destruct H as ([[[ts tlv] c] r] & I & H). apply rbind_ok in H. destruct H as ([j k] & C & H).
  apply rbind_ok in H. destruct H as (v' & V & H). inversion H; subst.
  destruct (item_opens _ _ _ _ _ _ O I) as (b & E & OP & OC & A & F). exists b. split; [exact E|].
  destruct (choose_accepts _ _ _ _ C A) as (N & A' & D). exact (VS _ _ N _ _ _ _ _ A' OP OC (fun d => F (D d)) V).
Qed.

Lemma dec_list_sound : forall R k, val_sound R k -> forall f s vs, octets s -> dec_list f k s = Ok vs -> exists es, s = List.concat es /\ Forall2 R vs es.
Proof.
  intros R k VS. induction f as [|f IH]; intros [|b s] vs O H; cbn [dec_list] in H; try discriminate;
    try (inversion H; exists []; split; [reflexivity|constructor]).
  apply rbind_ok in H. destruct H as ([v s'] & D & H). apply rbind_ok in H. destruct H as (r & E & H). inversion H; subst.
  destruct (dec_one_sound _ _ _ _ _ VS O D) as (e & S & RV). rewrite S in O. apply octets_app in O. destruct O as [_ O].
  destruct (IH _ _ O E) as (es & -> & F). exists (e :: es). split; [exact S|constructor; [exact RV|exact F]].
Qed.

Definition fields_taken (bd new : bool) : list sfield -> list (option aval) -> list N -> Prop :=
  fix fields (fs : list sfield) (vs : list (option aval)) (c : list N) {struct fs} : Prop :=
    match fs, vs with
    | [], [] => c = []
    | SF _ p s' :: fs', o :: vs' =>
        (exists x e c', o = Some x /\ c = e ++ c' /\ taken_for bd new s' None x e /\ fields fs' vs' c')
        \/ (p <> Mandatory /\ o = when_absent p /\ fields fs' vs' c)
    | _, _ => False
    end.
Lemma fields_length : forall bd new fs vs c, fields_taken bd new fs vs c -> List.length vs = List.length fs.
Proof.
  intros bd new. induction fs as [|[n p s] fs IH]; intros [|o vs] c H; cbn [fields_taken] in H; try contradiction; [reflexivity|]. cbn. f_equal.
  destruct H as [(x & e & c' & _ & _ & _ & H)|(_ & _ & H)]; exact (IH _ _ H).
Qed.
Lemma all_length : forall A B (R : A -> B -> Prop) l m, Forall2 R l m -> List.length l = List.length m.
Proof. intros A B R l m H. induction H; cbn; congruence. Qed.
Definition part_taken (bd new : bool) : list sfield -> nat -> aval -> list N -> Prop :=
  fix component (fs : list sfield) (i : nat) (x : aval) (e : list N) {struct fs} : Prop :=
    match fs, i with
    | SF _ _ s' :: _, O => taken_for bd new s' None x e
    | _ :: fs', S i' => component fs' i' x e
    | [], _ => False
    end.
Definition alt_taken (bd new : bool) : list sfield -> nat -> aval -> list N -> Prop :=
  fix alt (fs : list sfield) (i : nat) (x : aval) (e : list N) {struct fs} : Prop :=
    match fs, i with
    | SF _ _ s' :: _, O => taken_for bd new s' None x e
    | _ :: fs', S i' => alt fs' i' x e
    | [], _ => new = true /\ tagged_somehow e
    end.
Lemma part_nth_taken : forall bd new fs i f x e, nth_error fs i = Some f -> taken_for bd new (sf_type f) None x e -> part_taken bd new fs i x e.
Proof.
  intros bd new. induction fs as [|[n p s] fs IH]; intros [|i] f x e N H; try discriminate; cbn in N.
  - inversion N; subst. exact H.
  - exact (IH _ _ _ _ N H).
Qed.
Lemma alt_nth_taken : forall bd new fs i f x e, nth_error fs i = Some f -> taken_for bd new (sf_type f) None x e -> alt_taken bd new fs i x e.
Proof.
  intros bd new. induction fs as [|[n p s] fs IH]; intros [|i] f x e N H; try discriminate; cbn in N.
  - inversion N; subst. exact H.
  - exact (IH _ _ _ _ N H).
Qed.
Lemma alt_none_taken : forall bd new fs i x e, nth_error fs i = None -> new = true /\ tagged_somehow e -> alt_taken bd new fs i x e.
Proof.
  intros bd new. induction fs as [|[n p s] fs IH]; intros [|i] x e N H; try discriminate; cbn in N; [exact H|exact H|exact (IH _ _ _ N H)].
Qed.

(** A component and its decoder. *)
Definition needs (p : need) (k : comp) : Prop := (required k = true <-> p = Mandatory) /\ absent k = when_absent p.
(** What is left out aside. *)
Definition reads_as (sk : list exempt) (bd new : bool) (s : sty) (v : aval) (b : list N) : Prop := leaves sk s v = true -> taken_for bd new s None v b.
Definition needs_but (sk : list exempt) (f : sfield) (k : comp) : Prop :=
  forall L, left sk L f (absent k) = true -> needs (sf_need f) k.
Definition comp_sound (sk : list exempt) (bd new : bool) (f : sfield) (k : comp) : Prop :=
  needs_but sk f k /\ (spared sk (sf_name f) = false -> val_sound (reads_as sk bd new (sf_type f)) k).
Lemma there_leaves : forall sk L f x, left sk L f (Some x) = true -> spared sk (sf_name f) = false /\ L (sf_type f) x = true.
Proof.
  intros sk L f x H. unfold left, slot_leaves in H. destruct (spared sk (sf_name f)); [discriminate H|]. apply andb_prop in H. split; [reflexivity|exact (proj2 H)].
Qed.
Lemma not_required : forall p k, needs p k -> required k = false -> p <> Mandatory.
Proof. intros p k [A _] R E. apply A in E. congruence. Qed.
Lemma fields_absent : forall sk bd new fs cs, Forall2 (comp_sound sk bd new) fs cs -> existsb required cs = false -> leave_fields sk fs (map absent cs) = true ->
  forall fs' vs c, fields_taken bd new fs' vs c -> fields_taken bd new (fs ++ fs') (map absent cs ++ vs) c.
Proof.
  intros sk bd new fs cs F. induction F as [|[n p s] k fs cs [NE _] F IH]; intros R LV fs' vs c H; [exact H|].
  cbn [map] in LV. change (left sk (leaves sk) (SF n p s) (absent k) && leave_fields sk fs (map absent cs) = true) in LV.
  apply andb_prop in LV. destruct LV as [LV1 LV2]. specialize (NE _ LV1).
  cbn [existsb] in R. apply orb_false_iff in R. destruct R as [R1 R2]. cbn [app map fields_taken]. cbn [sf_need] in NE. right.
  split; [exact (not_required _ _ NE R1)|]. split; [apply NE|exact (IH R2 LV2 _ _ _ H)].
Qed.
Lemma run_nth : forall cs i k, nth_error (run cs) i = Some k -> nth_error cs i = Some k.
Proof.
  induction cs as [|c cs IH]; intros i k H; [destruct i; discriminate|]. cbn [run] in H. destruct (required c).
  - destruct i as [|[|]]; [exact H|discriminate|discriminate].
  - destruct i as [|i]; [exact H|exact (IH _ _ H)].
Qed.
Lemma Forall2_nth : forall A B (P : A -> B -> Prop) l m, Forall2 P l m -> forall i y, nth_error m i = Some y -> exists x, nth_error l i = Some x /\ P x y.
Proof.
  intros A B P l m F. induction F as [|x y l m H F IH]; intros [|i] z N; try discriminate; cbn in *.
  - inversion N; subst. exists x. split; [reflexivity|exact H].
  - exact (IH _ _ N).
Qed.
Lemma Forall2_split : forall A B (P : A -> B -> Prop) l m1 y m2, Forall2 P l (m1 ++ y :: m2) ->
  exists l1 x l2, l = l1 ++ x :: l2 /\ Forall2 P l1 m1 /\ P x y /\ Forall2 P l2 m2 /\ List.length l1 = List.length m1.
Proof.
  intros A B P l m1. revert l. induction m1 as [|z m1 IH]; intros l y m2 F; inversion F; subst.
  - exists [], x, l0. repeat split; auto.
  - destruct (IH _ _ _ H3) as (l1 & x' & l2 & -> & A1 & A2 & A3 & A4). exists (x :: l1), x', l2. repeat split; auto. cbn. congruence.
Qed.
Lemma dec_seq_sound : forall sk bd new f fs cs s vs, Forall2 (comp_sound sk bd new) fs cs -> octets s -> dec_seq f cs s = Ok vs -> leave_fields sk fs vs = true ->
  fields_taken bd new fs vs s.
Proof.
  intros sk bd new. induction f as [|f IH]; intros fs cs s vs F O H LV.
  - destruct s as [|b s]; [|destruct cs; discriminate]. cbn in H. destruct (existsb required cs) eqn:R; [discriminate|]. inversion H; subst.
    pose proof (fields_absent sk bd new fs cs F R LV [] [] [] eq_refl) as K. rewrite !app_nil_r in K. exact K.
  - destruct s as [|b s].
    { cbn in H. destruct (existsb required cs) eqn:R; [discriminate|]. inversion H; subst.
      pose proof (fields_absent sk bd new fs cs F R LV [] [] [] eq_refl) as K. rewrite !app_nil_r in K. exact K. }
    destruct cs as [|c cs]; [discriminate|].
    change (dec_seq (S f) (c :: cs) (b :: s)) with
      (if required c then let! (v, s') := dec_one c (b :: s) in let! r := dec_seq f cs s' in Ok (Some v :: r)
       else let! (i, v, s') := dec_run (run (c :: cs)) (b :: s) in
            let! r := dec_seq f (skipn (S i) (c :: cs)) s' in Ok (map absent (firstn i (c :: cs)) ++ Some v :: r)) in H.
    destruct (required c) eqn:R.
    + apply rbind_ok in H. destruct H as ([v s'] & D & H). apply rbind_ok in H. destruct H as (r & E & H).
      assert (vs = Some v :: r) by congruence. subst vs. inversion F as [|[n p t] k0 fs0 cs0 [NE VS] F0 E1 E2]; subst. cbn [sf_type] in VS.
      change (left sk (leaves sk) (SF n p t) (Some v) && leave_fields sk fs0 r = true) in LV. apply andb_prop in LV. destruct LV as [LV1 LV2].
      destruct (there_leaves _ _ _ _ LV1) as [SP LVV]. specialize (VS SP).
      destruct (dec_one_sound _ _ _ _ _ VS O D) as (e & SE & RV). rewrite SE in O |- *. apply octets_app in O. destruct O as [_ O].
      cbn [fields_taken]. left. exists v, e, s'. split; [reflexivity|]. split; [reflexivity|]. split; [exact (RV LVV)|exact (IH _ _ _ _ F0 O E LV2)].
    + apply rbind_ok in H. destruct H as ([[i v] s'] & D & H). apply rbind_ok in H. destruct H as (r & E & H).
      assert (vs = map absent (firstn i (c :: cs)) ++ Some v :: r) by congruence. subst vs. clear H.
      set (l := c :: cs) in *. clearbody l.
      pose proof (dec_run_pos _ _ _ _ _ D) as P. destruct (run_prefix _ _ P) as (A & c' & N).
      assert (X : exists e, b :: s = e ++ s' /\ forall f, nth_error fs i = Some f -> spared sk (sf_name f) = false -> reads_as sk bd new (sf_type f) v e).
      { refine (dec_run_sound (fun j v e => forall f, nth_error fs j = Some f -> spared sk (sf_name f) = false -> reads_as sk bd new (sf_type f) v e) (run l) (b :: s) i v s' _ O D).
        intros j k NJ. apply run_nth in NJ. destruct (Forall2_nth _ _ _ _ _ F _ _ NJ) as (g & NG & [_ VS]).
        intros ts tlv c0 b0 v0 H1 H2 H3 H4 H5 f0 NF SP. rewrite NG in NF. inversion NF; subst. exact (VS SP _ _ _ _ _ H1 H2 H3 H4 H5). }
      destruct X as (e & SE & RV). rewrite SE in O |- *. apply octets_app in O. destruct O as [_ O].
      destruct (nth_error_split _ _ N) as (l1 & l2 & -> & L1). subst i.
      assert (SK : skipn (S (List.length l1)) (l1 ++ c' :: l2) = l2).
      { clear. induction l1 as [|x l1 IH]; [reflexivity|exact IH]. }
      rewrite SK in E. rewrite firstn_app, Nat.sub_diag, firstn_all in *. cbn [firstn] in *. rewrite app_nil_r in *.
      destruct (Forall2_split _ _ _ _ _ _ _ F) as (fs1 & [n p t] & fs2 & -> & F1 & [NE VS] & F2 & LF).
      unfold leave_fields in LV. rewrite leave_app in LV by (rewrite map_length; exact LF). apply andb_prop in LV. destruct LV as [LV0 LV].
      change (left sk (leaves sk) (SF n p t) (Some v) && leave_fields sk fs2 r = true) in LV. apply andb_prop in LV. destruct LV as [LV1 LV2].
      destruct (there_leaves _ _ _ _ LV1) as [SP LVV].
      apply (fields_absent sk); [exact F1|exact A|exact LV0|]. cbn [fields_taken]. left. exists v, e, s'. split; [reflexivity|]. split; [reflexivity|].
      split; [|exact (IH _ _ _ _ F2 O E LV2)]. apply (RV (SF n p t)); [|exact SP|exact LVV]. rewrite <- LF, nth_error_app2, Nat.sub_diag by lia. reflexivity.
Qed.

Definition last_from (o : option aval) (j : nat) (items : list (nat * aval * list N)) : option aval :=
  fold_left (fun o it => if Nat.eqb (fst (fst it)) j then Some (snd (fst it)) else o) items o.
Lemma set_nth_nth : forall A i (x : A) l j, nth_error (set_nth i x l) j = match nth_error l j with Some y => Some (if Nat.eqb i j then x else y) | None => None end.
Proof.
  intros A i x l. revert i. induction l as [|y l IH]; intros [|i] [|j]; cbn; try reflexivity.
  - destruct (nth_error l j); reflexivity.
  - apply IH.
Qed.
Definition part_reads (sk : list exempt) (bd new : bool) (fs : list sfield) (i : nat) (x : aval) (e : list N) : Prop :=
  exists f, nth_error fs i = Some f /\ (spared sk (sf_name f) = false -> reads_as sk bd new (sf_type f) x e).
Lemma dec_set_sound : forall sk bd new fs cs, Forall2 (comp_sound sk bd new) fs cs -> forall f slots s sl, octets s -> dec_set f cs slots s = Ok sl ->
  exists items, s = List.concat (map snd items) /\ Forall (fun it => part_reads sk bd new fs (fst (fst it)) (snd (fst it)) (snd it)) items /\
    forall j, nth_error sl j = match nth_error slots j with Some o => Some (last_from o j items) | None => None end.
Proof.
  intros sk bd new fs cs F. induction f as [|f IH]; intros slots [|b s] sl O H; cbn [dec_set] in H; try discriminate;
    try (inversion H; subst; exists []; split; [reflexivity|]; split; [constructor|]; intro j; destruct (nth_error sl j); reflexivity).
  apply rbind_ok in H. destruct H as ([[i v] s'] & D & H).
  assert (X : exists e, b :: s = e ++ s' /\ part_reads sk bd new fs i v e).
  { refine (dec_run_sound (part_reads sk bd new fs) cs (b :: s) i v s' _ O D). intros j k NJ.
    destruct (Forall2_nth _ _ _ _ _ F _ _ NJ) as (g & NG & [_ VS]). intros ts tlv c0 b0 v0 H1 H2 H3 H4 H5.
    exists g. split; [exact NG|]. intro SP. exact (VS SP _ _ _ _ _ H1 H2 H3 H4 H5). }
  destruct X as (e & S & RV). rewrite S in O |- *. apply octets_app in O. destruct O as [_ O].
  destruct (IH _ _ _ O H) as (items & -> & FI & LA). exists ((i, v, e) :: items). split; [reflexivity|]. split; [constructor; [exact RV|exact FI]|].
  intro j. rewrite LA, set_nth_nth. destruct (nth_error slots j) as [o|]; [|reflexivity]. reflexivity.
Qed.
Lemma fill_sound : forall sk bd new fs cs, Forall2 (comp_sound sk bd new) fs cs -> forall sl vs, fill cs sl = Ok vs -> List.length vs = List.length fs /\
  (leave_members sk fs vs = true -> forall j f, nth_error fs j = Some f -> exists o, nth_error sl j = Some o /\
    nth_error vs j = Some (match o with Some x => Some x | None => when_absent (sf_need f) end) /\ (sf_need f = Mandatory -> o <> None)).
Proof.
  intros sk bd new fs cs F. induction F as [|g k fs cs [NE VS] F IH]; intros [|o sl] vs H; cbn [fill] in H; try discriminate.
  - inversion H; subst. split; [reflexivity|]. intros _ [|j] f N; discriminate.
  - apply rbind_ok in H. destruct H as (r & D & H). destruct (IH _ _ D) as [L K].
    assert (X : exists o', vs = o' :: r) by (destruct o; [eexists; inversion H; reflexivity|destruct (required k); [discriminate H|eexists; inversion H; reflexivity]]).
    destruct X as (o' & ->). split; [cbn; congruence|]. intro LV.
    assert (LL : left sk (fun s _ => free sk s) g o' = true /\ leave_members sk fs r = true) by (destruct g; apply andb_prop in LV; exact LV).
    destruct LL as [LV1 LV2].
    assert (X : o' = match o with Some x => Some x | None => when_absent (sf_need g) end /\ (sf_need g = Mandatory -> o <> None)).
    { destruct o as [v|]; [inversion H; split; [reflexivity|discriminate]|]. destruct (required k) eqn:R; [discriminate|]. inversion H; subst.
      destruct (NE _ LV1) as [N1 N2]. rewrite N2. split; [reflexivity|]. intro E. apply N1 in E. congruence. }
    destruct X as [-> M]. intros [|j] f N; cbn in N |- *.
    + inversion N; subst. exists o. split; [reflexivity|]. split; [reflexivity|exact M].
    + exact (K LV2 _ _ N).
Qed.
(** An item of a SET stays, or another one for the component does. *)
Lemma last_there : forall (items : list (nat * aval * list N)) i v bs, In (i, v, bs) items -> last_of i items <> None.
Proof.
  intros items i v bs I. unfold last_of. assert (K : forall (items : list (nat * aval * list N)) o, (o <> None \/ exists v bs, In (i, v, bs) items) ->
    fold_left (fun o it => if Nat.eqb (fst (fst it)) i then Some (snd (fst it)) else o) items o <> None).
  { clear. induction items as [|it its IH]; intros o H; cbn [fold_left].
    - destruct H as [H|(v & bs & H)]; [exact H|destruct H].
    - apply IH. destruct H as [H|(v & bs & [->|H])].
      + left. destruct (Nat.eqb (fst (fst it)) i); [discriminate|exact H].
      + left. cbn [fst snd]. rewrite Nat.eqb_refl. discriminate.
      + right. exists v, bs. exact H. }
  apply K. right. exists v, bs. exact I.
Qed.

(** ** Types *)

(** [inner] inside explicit tags, innermost first; [free]: whether the first may say primitive. *)
Fixpoint wraps (free : bool) (acc : list (tclass * N)) (inner b : list N) : Prop :=
  match acc with
  | [] => b = inner
  | a :: acc' => exists k e junk, an_item a k (inner ++ junk) e /\ (k = true \/ free = true) /\ wraps false acc' e b
  end.
Lemma tag_is_item : forall a g c b, tag_is a g = true -> header g c b -> an_item a (tcons g) c b.
Proof.
  intros [cl n] g c b H I. unfold tag_is in H. cbn [fst snd] in H. apply andb_prop in H. destruct H as [A B]. apply N.eqb_eq in B. subst n.
  assert (cl = tcls g) by (destruct cl, (tcls g); try discriminate A; reflexivity). subst cl. exact I.
Qed.
Lemma opens_wraps : forall acc g ts c b, all2 tag_is acc ts = true -> opens (g :: ts) c b -> exists inner, header g c inner /\ wraps false acc inner b.
Proof.
  induction acc as [|a acc IH]; intros g [|g' ts] c b H O; try discriminate H.
  - inversion O; subst; [|match goal with K : opens [] _ _ |- _ => inversion K end]. exists b. split; [assumption|reflexivity].
  - cbn [all2] in H. apply andb_prop in H. destruct H as [H1 H2]. inversion O as [|g0 c0 inner junk ts0 b0 OI CT HI]; subst.
    destruct (IH g' ts _ _ H2 OI) as (e & HE & WE). exists inner. split; [assumption|]. cbn [wraps]. exists (tcons g'), e, junk.
    split; [exact (tag_is_item _ _ _ _ H1 HE)|]. split; [left; exact CT|exact WE].
Qed.
Lemma con_eqb : forall l gs ts, con_tags l gs = true -> tags_eqb ts gs = true -> all2 tag_is l ts = true.
Proof.
  induction l as [|a l IH]; intros [|g gs] [|t ts] H E; try discriminate; [reflexivity|].
  unfold con_tags, tags_eqb in *. cbn [all2 list_eqb] in *. apply andb_prop in H. destruct H as [H1 H2]. apply andb_prop in E. destruct E as [E1 E2].
  rewrite (IH _ _ H2 E2), andb_true_r. unfold tag_is, tag_eqb in *. apply andb_prop in H1, E1. destruct H1 as [A B]. destruct E1 as [C D].
  apply N.eqb_eq in B, D. rewrite D, B, N.eqb_refl, andb_true_r. destruct (tcls t), (tcls g), (fst a); try discriminate; reflexivity.
Qed.
Lemma accepts_key : forall x k ts, accepts (mkT [x] false k) ts = true -> tags_eqb ts x = true.
Proof. intros x k ts H. unfold accepts, mem_tags in H. cbn [keys dflt existsb andb] in H. rewrite !orb_false_r in H. exact H. Qed.
Lemma opens_some : forall ts c b, opens ts c b -> tagged_somehow b.
Proof. intros ts c b O. induction O as [g c b H|g c inner junk ts b O IH C H]; [eexists _, _, _; exact H|exact IH]. Qed.
Lemma opens_nonempty : forall ts c b, opens ts c b -> ts <> [].
Proof. intros ts c b O. inversion O; discriminate. Qed.
Lemma denotes_shape : forall p v c, denotes p v c -> prim_shape p v = true.
Proof. intros p v c H. destruct p, v; cbn in H; try contradiction; reflexivity. Qed.
Lemma contents_shape : forall (k : bool) p v c, (if k then denotes_parted p v c else denotes p v c) -> prim_shape p v = true.
Proof. intros [] p v c H; destruct p, v; cbn in H; try contradiction; reflexivity. Qed.
(** Components compared in presence, or at least never absent when read as written. *)
Lemma fields_agree : forall sk nm bd fs gs, agree_fields sk nm bd fs gs = true ->
  Forall2 (fun f g => need_ok sk (sf_name f) (sf_need f) (fpres g) (fdef g) = true /\
    (spared sk (sf_name f) = false -> agrees_but sk nm bd (sf_type f) None [] [] (ftype g) = true)) fs gs.
Proof.
  intros sk nm bd fs. induction fs as [|[n p s] fs IH]; intros [|[n' q t d o] gs] H; try discriminate H; [constructor|].
  cbn [agree_fields] in H. fold (agree_fields sk nm bd) in H. rewrite !andb_true_iff in H. destruct H as [[[_ H1] H2] H3].
  constructor; [split; [exact H1|]|exact (IH _ H3)]. cbn [sf_name sf_type ftype]. intro SP. rewrite SP in H2. exact H2.
Qed.
Lemma same_needs : forall p g, same_need p (fpres g) (fdef g) = true -> needs p (fcomp None g).
Proof.
  intros p [n q t d o] H. cbn [fpres fdef] in H. unfold needs, required, absent. cbn [fcomp c_pres c_def fpres fdef].
  destruct p, q; try discriminate H; (split; [split; (discriminate || reflexivity)|try reflexivity]).
  cbn in H. destruct d as [w|]; [|discriminate]. apply aval_eqb_sound in H. subst. reflexivity.
Qed.
(** A component that may be missing is missed. *)
Lemma missed : forall sk f g, need_ok sk (sf_name f) (sf_need f) (fpres g) (fdef g) = true -> forall o, o = absent (fcomp None g) \/ o = when_absent (sf_need f) ->
  forall L, left sk L f o = true -> needs (sf_need f) (fcomp None g).
Proof.
  intros sk [n p s] g N o E L H. cbn [sf_name sf_need sf_type] in *. unfold need_ok in N.
  destruct (excluded sk n) as [l|] eqn:X; [exfalso|exact (same_needs _ _ N)]. unfold left, slot_leaves in H. cbn [sf_name sf_need sf_type] in H. rewrite X in H.
  destruct o as [x|]; [|discriminate H]. destruct (spared sk n); [discriminate H|]. apply andb_prop in H. destruct H as [H _]. apply andb_prop in H. destruct H as [EN NI].
  destruct E as [E|E].
  - destruct g as [n' q t d o]. unfold absent in E. cbn [fcomp c_pres c_def fpres fdef] in *. destruct q; try discriminate E. subst d. cbn [shows] in N.
    rewrite N in NI. discriminate NI.
  - destruct p as [| |d]; cbn [when_absent] in E; try discriminate E. injection E as ->. cbn [encoded] in EN. rewrite (proj2 EqbFacts.eqb_refl) in EN. discriminate EN.
Qed.
Lemma any_agrees : forall sk nm bd s, any_under s = true -> forall u acc cs t, agrees_but sk nm bd s None (u :: acc) cs t = agrees_but sk nm bd s (Some u) acc cs t.
Proof.
  intros sk nm bd. induction s; intros H u acc cs t; try discriminate H; [reflexivity|]. cbn [agrees_but]. apply IHs, H.
Qed.
Lemma any_shape : forall nm bd s, any_under s = true -> forall over acc cs t, agrees nm bd s over acc cs t = true -> exists m, t = TPrim KAny m.
Proof.
  intros nm bd. induction s; intros H over acc cs t A; try discriminate H.
  - destruct t as [[] m| | |]; try discriminate A. exists m. reflexivity.
  - cbn [agrees_but] in A. exact (IHs H _ _ _ _ A).
Qed.

(** A SEQUENCE with constraints of its own has no open components, so the decoder checks them. *)
Definition watched (t : asn1) : bool :=
  match t with TSeq _ m fs => if ctruthy (spec m) then negb (existsb (fun f => is_some (fopen f)) fs) else true | _ => true end.
(** The schema object has no alternatives that the type lacks. *)
Fixpoint exact_alts (s : sty) (t : asn1) {struct s} : bool :=
  let fix go (fs : list sfield) (gs : list field) {struct fs} : bool :=
    match fs, gs with
    | [], [] => true
    | SF _ _ s' :: fs', Fld _ _ t' _ _ :: gs' => if exact_alts s' t' then go fs' gs' else false
    | _, _ => false
    end in
  match s, t with
  | ATag _ _ _ s', _ | ACon _ s', _ => exact_alts s' t
  | ASeq fs, TSeq _ _ gs | ASet fs, TSeq _ _ gs | AChoice fs, TChoice _ gs => go fs gs
  | ASeqOf s', TOf _ _ (Some t') | ASetOf s', TOf _ _ (Some t') => exact_alts s' t'
  | _, _ => true
  end.
Fixpoint exact_fields (fs : list sfield) (gs : list field) {struct fs} : bool :=
  match fs, gs with
  | [], [] => true
  | f :: fs', g :: gs' => if exact_alts (sf_type f) (ftype g) then exact_fields fs' gs' else false
  | _, _ => false
  end.
Lemma exact_go : forall fs gs,
  (fix go (fs : list sfield) (gs : list field) {struct fs} : bool :=
    match fs, gs with
    | [], [] => true
    | SF _ _ s' :: fs', Fld _ _ t' _ _ :: gs' => if exact_alts s' t' then go fs' gs' else false
    | _, _ => false
    end) fs gs = exact_fields fs gs.
Proof. induction fs as [|[n p s] fs IH]; intros [|[n' q t d o] gs]; try reflexivity. cbn [exact_fields sf_type ftype]. rewrite <- IH. reflexivity. Qed.
Lemma exact_nth : forall fs gs, exact_fields fs gs = true -> List.length fs = List.length gs /\
  forall i f g, nth_error fs i = Some f -> nth_error gs i = Some g -> exact_alts (sf_type f) (ftype g) = true.
Proof.
  induction fs as [|f fs IH]; intros [|g gs] H; try discriminate H; [split; [reflexivity|intros [|]; discriminate]|].
  cbn [exact_fields] in H. destruct (exact_alts (sf_type f) (ftype g)) eqn:E; [|discriminate H]. destruct (IH _ H) as [L K].
  split; [cbn; congruence|]. intros [|i] f' g' N M; cbn in N, M; [congruence|exact (K i f' g' N M)].
Qed.

Section sound.
  Variable sk : list exempt.
  Variables nm bd new : bool.
  Definition rig (s : sty) (t : asn1) : Prop := wf t = true /\ (bd = true -> everywhere watched t = true) /\ (new = false -> exact_alts s t = true).
  Definition rigs (fs : list sfield) (gs : list field) : Prop :=
    forallb wf_field gs = true /\ (bd = true -> everywhere_all watched gs = true) /\ (new = false -> exact_fields fs gs = true).
  Lemma rigs_nth : forall fs gs, rigs fs gs -> forall i f g, nth_error fs i = Some f -> nth_error gs i = Some g -> rig (sf_type f) (ftype g).
  Proof.
    intros fs gs (W & E & X) i f g N M. split; [|split].
    - pose proof (proj1 (forallb_forall _ _) W g (nth_error_In _ _ M)) as K. unfold wf_field in K. apply andb_prop in K. destruct K as [K _].
      apply andb_prop in K. exact (proj1 K).
    - intro B. exact (proj1 (forallb_forall _ _) (E B) g (nth_error_In _ _ M)).
    - intro B. exact (proj2 (exact_nth _ _ (X B)) i f g N M).
  Qed.
  Lemma rigs_cons : forall f fs g gs, rigs (f :: fs) (g :: gs) -> rig (sf_type f) (ftype g) /\ rigs fs gs.
  Proof.
    intros f fs g gs R. split; [exact (rigs_nth _ _ R 0 f g eq_refl eq_refl)|]. destruct R as (W & E & X). split; [|split].
    - cbn [forallb] in W. apply andb_prop in W. exact (proj2 W).
    - intro B. specialize (E B). unfold everywhere_all in *. cbn [forallb] in E. apply andb_prop in E. exact (proj2 E).
    - intro B. specialize (X B). cbn [exact_fields] in X. destruct (exact_alts _ _); [exact X|discriminate].
  Qed.
  Lemma rig_seq : forall (set : bool) fs m gs, rig (if set then ASet fs else ASeq fs) (TSeq set m gs) -> rigs fs gs /\ (bd = true -> watched (TSeq set m gs) = true).
  Proof.
    intros set fs m gs (W & E & X). rewrite wf_seq in W. apply andb_prop in W. destruct W as [_ W]. split; [split; [exact W|split]|].
    - intro B. specialize (E B). cbn [everywhere] in E. rewrite everywhere_go in E. apply andb_prop in E. exact (proj2 E).
    - intro B. specialize (X B). destruct set; cbn [exact_alts] in X; rewrite exact_go in X; exact X.
    - intro B. specialize (E B). cbn [everywhere] in E. apply andb_prop in E. exact (proj1 E).
  Qed.
  Lemma rig_choice : forall fs m gs, rig (AChoice fs) (TChoice m gs) -> rigs fs gs.
  Proof.
    intros fs m gs (W & E & X). rewrite wf_choice in W. apply andb_prop in W. destruct W as [_ W]. split; [exact W|split].
    - intro B. specialize (E B). cbn [everywhere] in E. rewrite everywhere_go in E. apply andb_prop in E. exact (proj2 E).
    - intro B. specialize (X B). cbn [exact_alts] in X; rewrite exact_go in X; exact X.
  Qed.
  Lemma rig_of : forall (set : bool) s m t, rig (if set then ASetOf s else ASeqOf s) (TOf set m (Some t)) -> rig s t.
  Proof.
    intros set s m t (W & E & X). cbn [wf] in W. apply andb_prop in W. destruct W as [_ W]. split; [exact W|split].
    - intro B. specialize (E B). cbn [everywhere] in E. apply andb_prop in E. exact (proj2 E).
    - intro B. specialize (X B). destruct set; exact X.
  Qed.
  Definition seen (s : sty) (v : aval) (cs : list scon) : bool := forallb (fun c => negb (observed c s) || sok c v) cs.
  Definition dec_ok (s : sty) : Prop := forall over acc cs t ts tlv c b v, agrees_but sk nm bd s over acc cs t = true -> rig s t ->
    (any_under s = true -> over = None -> acc = []) ->
    accepts (tag_map t) ts = true -> opens ts c b -> octets c -> fits (tag_map t) ts tlv b -> dec_val None t ts tlv c = Ok v ->
    leaves sk s v = true -> exists inner, taken_for bd new s over v inner /\ wraps (match over with None => choice_under s | _ => false end) acc inner b /\
      (bd = true -> seen s v cs = true).

  Lemma sok_seen : forall s v cs, forallb (fun c => sok c v) cs = true -> seen s v cs = true.
  Proof. intros s v cs H. apply forallb_forall. intros c I. rewrite (proj1 (forallb_forall _ _) H c I). apply orb_true_r. Qed.
  Lemma ok_val : forall s, dec_ok s -> forall g, agrees_but sk nm bd s None [] [] (ftype g) = true -> rig s (ftype g) ->
    val_sound (reads_as sk bd new s) (fcomp None g).
  Proof.
    intros s K [n p t d o] A W ts tlv c b v AC OP O F D LV. cbn [ftype] in *.
    destruct (K None [] [] t ts tlv c b v A W (fun _ _ => eq_refl) AC OP O F D LV) as (inner & TK & WR & _). cbn in WR. subst. exact TK.
  Qed.
  Lemma comps_ok : forall fs gs, Forall (fun f => dec_ok (sf_type f)) fs -> agree_fields sk nm bd fs gs = true -> rigs fs gs ->
    Forall2 (comp_sound sk bd new) fs (map (fcomp None) gs).
  Proof.
    intros fs gs F A W. apply fields_agree in A. induction A as [|f g fs gs [A1 A2] A IH]; [constructor|].
    inversion F; subst. apply rigs_cons in W. destruct W as [W1 W2]. cbn [map]. constructor; [|exact (IH H2 W2)].
    split; [exact (missed sk f g A1 _ (or_introl eq_refl))|]. intro SP. exact (ok_val _ H1 _ (A2 SP) W1).
  Qed.

  (** Peeling the header of a type with a tag of its own. *)
  Lemma own_header : forall own acc m ts c b, con_tags (own :: acc) (tags m) = true -> accepts (mkT [tags m] false true) ts = true -> opens ts c b ->
    exists g ts' inner, ts = g :: ts' /\ an_item own (tcons g) c inner /\ wraps false acc inner b.
  Proof.
    intros own acc m ts c b C A O. apply accepts_key in A. pose proof (con_eqb _ _ _ C A) as E. destruct ts as [|g ts]; [discriminate E|].
    cbn [all2] in E. apply andb_prop in E. destruct E as [E1 E2]. destruct (opens_wraps _ _ _ _ _ E2 O) as (inner & H & W).
    exists g, ts, inner. split; [reflexivity|]. split; [exact (tag_is_item _ _ _ _ E1 H)|exact W].
  Qed.
  Lemma wraps_free : forall k acc inner b, wraps false acc inner b -> wraps k acc inner b.
  Proof. intros k [|a acc] inner b H; [exact H|]. destruct H as (k0 & e & j & A & [B|B] & C); [|discriminate]. exists k0, e, j. auto. Qed.

  Lemma prim_sound : forall p, dec_ok (APrim p).
  Proof.
    intros p over acc cs t ts tlv c b v A W _ AC OP O F D _. destruct t as [k m| | |]; try discriminate A.
    cbn [agrees_but] in A. rewrite !andb_true_iff in A. destruct A as [[[A1 A2] _] A4]. rewrite dec_val_prim in D.
    apply rbind_ok in D. destruct D as (v' & D & CS). destruct (csat [] (spec m) v') eqn:CE; [|discriminate]. assert (v' = v) by congruence. subst v'.
    assert (TM : tag_map (TPrim k m) = mkT [tags m] false true) by (destruct p, k; try discriminate A1; reflexivity). rewrite TM in AC.
    destruct (own_header _ _ _ _ _ _ (prim_con _ _ A2) AC OP) as (g & ts' & inner & -> & IT & WR).
    pose proof (prim_denotes _ _ _ _ _ _ _ _ O A1 D) as DN. exists inner. split; [|split].
    - cbn [taken_for]. exists (tcons g), c. split; [exact IT|exact DN].
    - cbn [choice_under]. destruct over; exact WR.
    - intros B. rewrite B in A4. cbn [negb orb] in A4. pose proof (contents_shape _ _ _ _ DN) as SH.
      rewrite (cons_same_ok _ _ v [] A4 (shape_measured _ _ SH)) in CE. rewrite forallb_app in CE. apply andb_prop in CE. exact (sok_seen _ _ _ (proj2 CE)).
  Qed.
  Lemma any_sound : dec_ok AAny.
  Proof.
    intros over acc cs t ts tlv c b v A W AN AC OP O F D _. destruct t as [[] m| | |]; try discriminate A.
    cbn [agrees_but] in A. apply andb_prop in A. destruct A as [A1 A4]. rewrite dec_val_prim in D.
    apply rbind_ok in D. destruct D as (v' & D & CS). destruct (csat [] (spec m) v') eqn:CE; [|discriminate]. assert (v' = v) by congruence. subst v'.
    cbn [dec_prim] in D. destruct (F eq_refl) as [-> [g ->]]. destruct W as [W _]. cbn [wf] in W. apply Nat.leb_le in W.
    assert (HG : header g c b) by (inversion OP; subst; [assumption|match goal with K : opens [] _ _ |- _ => inversion K end]).
    assert (SI : tags_eqb [g] (tags m) = false -> an_item (tcls g, tnum g) (tcons g) c b /\ (tcls g, tnum g) <> (Universal, 0)).
    { intro E. unfold accepts, mem_tags in AC. cbn [tag_map keys dflt existsb andb] in AC. rewrite E in AC. cbn [orb] in AC. apply negb_true_iff in AC.
      split; [exact HG|]. intro K. inversion K as [[K1 K2]]. unfold eoo, tags_eqb in AC. cbn [list_eqb] in AC.
      unfold tag_eqb in AC. cbn [tcls tnum] in AC. rewrite K1, K2 in AC. discriminate AC. }
    apply out_con in A1.
    assert (X : exists x, v = VOcts x /\ acc = [] /\ match over with None => b = x /\ some_item x | Some t => (exists k, an_item t k x b) \/ (b = x /\ other_item t x) end).
    { destruct over as [u|].
      - assert (acc = []) by (apply all2_length in A1; cbn in A1; destruct acc; [reflexivity|cbn in A1; lia]). subst acc. cbn [bare app] in A1.
        destruct (tags_eqb [g] (tags m)) eqn:E.
        + exists c. split; [congruence|]. split; [reflexivity|]. left. exists (tcons g). pose proof (con_eqb _ _ _ A1 E) as K. cbn [all2] in K.
          rewrite andb_true_r in K. exact (tag_is_item _ _ _ _ K HG).
        + exists b. split; [congruence|]. split; [reflexivity|]. right. split; [reflexivity|]. destruct (SI eq_refl) as [S1 S2].
          exists (tcls g, tnum g), (tcons g), c. split; [exact S1|]. split; [exact S2|]. intro K. subst u.
          pose proof (all2_length _ _ _ _ _ A1) as L. destruct (tags m) as [|g' [|]]; try discriminate L. unfold con_tags in A1. cbn [all2] in A1. rewrite andb_true_r in A1.
          cbn [tags_eqb list_eqb] in E. rewrite andb_true_r in E. unfold tag_is in A1. cbn [fst snd] in A1. unfold tag_eqb in E. congruence.
      - specialize (AN eq_refl eq_refl). subst acc. cbn [bare app] in A1. destruct (tags m) as [|]; [|discriminate A1].
        destruct (SI eq_refl) as [S1 S2]. exists b. split; [|split; [reflexivity|split; [reflexivity|exists (tcls g, tnum g), (tcons g), c; split; [exact S1|exact S2]]]].
        cbn [tags_eqb list_eqb] in D. congruence. }
    destruct X as (x & -> & -> & X). exists b. split; [|split].
    - cbn [taken_for]. exists x. split; [reflexivity|exact X].
    - reflexivity.
    - intros B. rewrite B in A4. cbn [negb orb] in A4. rewrite (cons_same_ok _ _ (VOcts x) [] A4 eq_refl) in CE. exact (sok_seen _ _ _ CE).
  Qed.
  Lemma seq_sound : forall set fs, Forall (fun f => dec_ok (sf_type f)) fs -> dec_ok (if set : bool then ASet fs else ASeq fs).
  Proof.
    intros set fs F over acc cs t ts tlv c b v A W _ AC OP O FT D LVS.
    assert (X : exists m gs, t = TSeq set m gs /\ con_tags (pick over (Universal, if set then 17 else 16) :: acc) (tags m) = true /\ agree_fields sk nm bd fs gs = true /\ seq_cons bd cs (fnames gs) (spec m) = true).
    { destruct set, t as [|[] m gs| |]; try discriminate A; exists m, gs; cbn [agrees_but] in A; rewrite !andb_true_iff in A;
        destruct A as [[[A1 A3] _] A2]; (split; [reflexivity|split; [exact A1|split; [exact A2|exact A3]]]). }
    destruct X as (m & gs & -> & A1 & A2 & A3). change (tag_map (TSeq set m gs)) with (mkT [tags m] false true) in AC.
    destruct (own_header _ _ _ _ _ _ A1 AC OP) as (g & ts' & inner & -> & IT & WR). destruct (rig_seq _ _ _ _ W) as [W' WA]. clear W. rename W' into W.
    pose proof (comps_ok _ _ F A2 W) as CO. rewrite dec_seq_val in D. destruct (constructed (g :: ts')) eqn:CT; [|discriminate]. cbn [constructed] in CT. rewrite CT in IT.
    assert (X : exists vs, v = VSeq vs /\ (existsb (fun f => is_some (fopen f)) gs = true \/ ctruthy (spec m) && negb (csat (fnames gs) (spec m) (VSeq vs)) = false) /\ (if set then let! sl := dec_set (List.length c) (map (fcomp None) gs) (map (fun _ => None) (map (fcomp None) gs)) c in fill (map (fcomp None) gs) sl
                   else dec_seq (List.length (map (fcomp None) gs)) (map (fcomp None) gs) c) = Ok vs).
    { assert (D' : (let! vs := if set then let! sl := dec_set (List.length c) (map (fcomp None) gs) (map (fun _ => None) (map (fcomp None) gs)) c in fill (map (fcomp None) gs) sl
                   else dec_seq (List.length (map (fcomp None) gs)) (map (fcomp None) gs) c in
        if existsb (fun f => is_some (fopen f)) gs then Ok (VSeq vs) else if ctruthy (spec m) && negb (csat (fnames gs) (spec m) (VSeq vs)) then Err else Ok (VSeq vs)) = Ok v).
      { destruct gs as [|g0 gs]; [destruct c; [exact D|discriminate D]|exact D]. }
      apply rbind_ok in D'. destruct D' as (vs & E & D'). exists vs.
      destruct (existsb _ gs); [split; [congruence|split; [left; reflexivity|exact E]]|]. destruct (_ && _); [discriminate|split; [congruence|split; [right; reflexivity|exact E]]]. }
    destruct X as (vs & -> & CK & E).
    assert (LV : List.length vs = List.length (fnames gs)).
    { unfold fnames. rewrite map_length, <- (map_length (fcomp None) gs). destruct set.
      - apply rbind_ok in E. destruct E as (sl & _ & FI). rewrite (proj1 (fill_sound _ _ _ _ _ CO _ _ FI)). exact (all_length _ _ _ _ _ CO).
      - pose proof (dec_seq_sound _ _ _ _ _ _ _ _ CO O E LVS) as FT'. rewrite <- (all_length _ _ _ _ _ CO). exact (fields_length _ _ _ _ _ FT'). } exists inner. split; [|split].
    - destruct set.
      + apply rbind_ok in E. destruct E as (sl & E & FI). destruct (dec_set_sound _ _ _ _ _ CO _ _ _ _ O E) as (items & -> & FA & LA).
        destruct (fill_sound _ _ _ _ _ CO _ _ FI) as [L K]. change (leave_members sk fs vs = true) in LVS. specialize (K LVS).
        assert (SL : slots_of fs items vs).
        { split; [exact L|]. intros j f N. destruct (K _ _ N) as (o & N1 & N2 & N3). rewrite LA in N1.
          assert (LO : last_of j items = o).
          { destruct (nth_error (map (fun _ => None) (map (fcomp None) gs)) j) as [o'|] eqn:Q; [|discriminate N1]. injection N1 as <-.
            unfold last_of, last_from. f_equal. apply nth_error_In in Q. apply in_map_iff in Q. destruct Q as (x & Q & _). exact Q. }
          rewrite LO. split; [exact N2|exact N3]. }
        change (exists vs0 items0, VSeq vs = VSeq vs0 /\ an_item (pick over (Universal, 17)) true (List.concat (map snd items0)) inner /\
          Forall (fun it => part_taken bd new fs (fst (fst it)) (snd (fst it)) (snd it)) items0 /\ slots_of fs items0 vs0).
        exists vs, items. split; [reflexivity|]. split; [exact IT|]. split; [|exact SL].
        apply Forall_forall. intros [[i x] e] I. cbn [fst snd]. destruct (proj1 (Forall_forall _ _) FA _ I) as (f & N & RD). cbn [fst snd] in N, RD.
        destruct (proj2 SL i f N) as [S1 _]. pose proof (last_there _ _ _ _ I) as NE. destruct (last_of i items) as [y|]; [|congruence].
        destruct (there_leaves _ _ _ _ (leave_nth sk _ _ _ LVS i f _ N S1)) as [SP FR].
        exact (part_nth_taken bd new fs i f x e N (RD SP (free_leaves sk _ x FR))).
      + change (exists vs0 c0, VSeq vs = VSeq vs0 /\ an_item (pick over (Universal, 16)) true c0 inner /\ fields_taken bd new fs vs0 c0).
        exists vs, c. split; [reflexivity|]. split; [exact IT|]. exact (dec_seq_sound _ _ _ _ _ _ _ _ CO O E LVS).
    - replace (choice_under (if set then ASet fs else ASeq fs)) with false by (destruct set; reflexivity). destruct over; exact WR.
    - intros B. specialize (WA B). clear W. rewrite B in *. cbn [watched] in WA. apply sok_seen. rewrite <- (seq_cons_bounds _ _ _ _ A3 LV).
      destruct (ctruthy (spec m)); [|reflexivity]. destruct CK as [CK|CK]; [rewrite CK in WA; discriminate WA|]. cbn [andb] in CK. apply negb_false_iff in CK.
      rewrite CK. reflexivity.
  Qed.
  Lemma of_sound : forall set s, dec_ok s -> dec_ok (if set : bool then ASetOf s else ASeqOf s).
  Proof.
    intros set s K over acc cs t ts tlv c b v A W _ AC OP O FT D LV.
    assert (X : exists m e, t = TOf set m (Some e) /\ con_tags (pick over (Universal, if set then 17 else 16) :: acc) (tags m) = true /\ agrees_but sk nm bd s None [] [] e = true /\ (negb bd || cons_same cs (spec m) = true)).
    { destruct set, t as [| |[] m [e|]|]; try discriminate A; exists m, e; cbn [agrees_but] in A; rewrite !andb_true_iff in A;
        destruct A as [[[A1 _] A3] A2]; (split; [reflexivity|split; [exact A1|split; [exact A2|exact A3]]]). }
    destruct X as (m & e & -> & A1 & A2 & A3). change (tag_map (TOf set m (Some e))) with (mkT [tags m] false true) in AC.
    destruct (own_header _ _ _ _ _ _ A1 AC OP) as (g & ts' & inner & -> & IT & WR). apply rig_of in W.
    cbn [dec_val] in D. destruct (constructed (g :: ts')) eqn:CT; [|discriminate]. cbn [constructed] in CT. rewrite CT in IT.
    apply rbind_ok in D. destruct D as (vs & E & D). assert (v = VList vs) by congruence. subst v.
    destruct (dec_list_sound (reads_as sk bd new s) _ (ok_val s K (Fld "" Req e None None) A2 W) _ _ _ O E) as (es & -> & FR).
    assert (FA : Forall2 (taken_for bd new s None) vs es).
    { assert (LF : forallb (leaves sk s) vs = true) by (destruct set; exact LV). clear - FR LF. induction FR as [|x e vs es H FR IH]; [constructor|].
      cbn [forallb] in LF. apply andb_prop in LF. constructor; [exact (H (proj1 LF))|exact (IH (proj2 LF))]. }
    exists inner. split; [|split].
    - destruct set; cbn [taken_for]; exists vs, es; (split; [reflexivity|split; [exact IT|exact FA]]).
    - replace (choice_under (if set then ASetOf s else ASeqOf s)) with false by (destruct set; reflexivity). destruct over; exact WR.
    - intros B. rewrite B in A3. cbn [negb orb] in A3. unfold seen. apply forallb_forall. intros k I. apply orb_true_iff. left.
      unfold cons_same in A3. apply andb_prop in A3. destruct A3 as [_ A3]. pose proof (proj1 (forallb_forall _ _) A3 k I) as Q. cbv beta in Q.
      unfold observed. destruct k; try (destruct set; reflexivity). apply existsb_exists in Q. destruct Q as (a & _ & Q). destruct a; discriminate Q.
  Qed.
  Lemma alt_sound : forall fs gs, Forall (fun f => dec_ok (sf_type f)) fs -> agree_alts sk nm bd fs gs = true -> rigs fs gs ->
    forall j k, nth_error (map (fcomp None) gs) j = Some k -> val_sound (fun x b => leaves sk (AChoice fs) (VAlt j x) = true -> alt_taken bd new fs j x b) k.
  Proof.
    intros fs gs F A W j k N. destruct (nth_error fs j) as [f|] eqn:NF.
    - destruct (spared sk (sf_name f)) eqn:SP.
      { intros ts tlv c b v _ _ _ _ _ LV. rewrite leaves_choice, NF in LV. destruct (alt_spared _ _ _ LV) as [Q _]. congruence. }
      destruct (alts_nth _ _ _ _ _ A j f NF SP) as (g & NG & AG). rewrite (map_nth_error _ _ _ NG) in N. inversion N; subst k.
      pose proof (rigs_nth _ _ W _ _ _ NF NG) as WG.
      pose proof (ok_val _ (proj1 (Forall_forall _ _) F f (nth_error_In _ _ NF)) g AG WG) as VS.
      intros ts tlv c b v H1 H2 H3 H4 H5 LV. rewrite leaves_choice, NF in LV. destruct (alt_spared _ _ _ LV) as [_ LX].
      exact (alt_nth_taken bd new fs j f v b NF (VS _ _ _ _ _ H1 H2 H3 H4 H5 LX)).
    - assert (NN : new = true).
      { case_eq new; [reflexivity|]. intro NE. destruct (exact_nth _ _ (proj2 (proj2 W) NE)) as [L _]. apply nth_error_None in NF.
        assert (j < List.length gs)%nat by (rewrite <- (map_length (fcomp None) gs); apply nth_error_Some; congruence). lia. }
      intros ts tlv c b v _ H2 _ _ _ _. exact (alt_none_taken bd new fs j v b NF (conj NN (opens_some _ _ _ H2))).
  Qed.
  Lemma choice_sound : forall fs, Forall (fun f => dec_ok (sf_type f)) fs -> dec_ok (AChoice fs).
  Proof.
    intros fs F over acc cs t ts tlv c b v A W _ AC OP O FT D LV. destruct t as [| | |m gs]; try discriminate A.
    cbn [agrees_but] in A. rewrite !andb_true_iff in A. destruct A as [[A1 A3] A2]. change (agree_alts sk nm bd fs gs = true) in A2.
    pose proof (rig_choice _ _ _ W) as WF. destruct W as [W _].
    rewrite wf_choice in W. apply andb_prop in W. destruct W as [W _]. apply andb_prop in W. destruct W as [_ WA].
    assert (SN : forall w, bd = true -> seen (AChoice fs) w cs = true).
    { intros w B. rewrite B in A3. destruct cs; [reflexivity|discriminate A3]. }
    pose proof (alt_sound fs gs F A2 WF) as VS. rewrite dec_choice_val in D. cbv zeta in D. rewrite tag_map_choice in AC, FT.
    assert (TK : forall over v inner, taken_for bd new (AChoice fs) over v inner = exists i x, v = VAlt i x /\
      match over with None => alt_taken bd new fs i x inner | Some t => exists k e ignored, an_item t k (e ++ ignored) inner /\ alt_taken bd new fs i x e end) by reflexivity.
    destruct (tags m) as [|g0 gs0] eqn:TM.
    - assert (E : bare over ++ acc = []) by (destruct (bare over ++ acc); [reflexivity|discriminate A1]).
      destruct over; [discriminate E|]. cbn [bare app] in E. subst acc.
      destruct ts as [|g ts]; [destruct (opens_nonempty _ _ _ OP eq_refl)|]. cbn [tags_eqb list_eqb] in D.
      apply rbind_ok in D. destruct D as ([i k] & CH & D). apply rbind_ok in D. destruct D as (x & CV & D). assert (v = VAlt i x) by congruence. subst v.
      assert (MM : map c_map (map (fcomp None) gs) = map fmap gs) by (rewrite map_map; reflexivity).
      rewrite <- MM in AC. destruct (choose_accepts _ _ _ _ CH AC) as (N & A' & DF).
      unfold alts_ok in WA. cbv zeta in WA. apply andb_prop in WA. destruct WA as [_ WA]. apply negb_true_iff in WA. rewrite <- MM in WA.
      assert (FF : fits (c_map k) (g :: ts) c b) by (intro Q; specialize (DF Q); congruence).
      pose proof (VS _ _ N _ _ _ _ _ A' OP O FF CV LV) as R. exists b. split; [|split; [reflexivity|exact (SN _)]].
      rewrite TK. exists i, x. split; [reflexivity|exact R].
    - rewrite <- TM in *. pose proof (accepts_key _ _ _ AC) as E. rewrite E in D.
      apply rbind_ok in D. destruct D as ([[i x] r] & DR & D). assert (v = VAlt i x) by congruence. subst v.
      destruct (dec_run_sound (fun j x b => leaves sk (AChoice fs) (VAlt j x) = true -> alt_taken bd new fs j x b) _ _ _ _ _ VS O DR) as (e & -> & R). specialize (R LV).
      destruct (bare over ++ acc) as [|own rest] eqn:BA; [rewrite TM in A1; discriminate A1|].
      destruct (own_header own rest m ts _ b A1 AC OP) as (g & ts' & inner & -> & IT & WR). destruct over as [u|].
      + cbn [bare app] in BA. inversion BA; subst. exists inner. split; [|split; [exact WR|exact (SN _)]].
        rewrite TK. exists i, x. split; [reflexivity|]. exists (tcons g), e, r. split; [exact IT|exact R].
      + cbn [bare app] in BA. subst acc. exists e. split; [|split; [|exact (SN _)]].
        * rewrite TK. exists i, x. split; [reflexivity|exact R].
        * cbn [choice_under wraps]. exists (tcons g), inner, r. split; [exact IT|]. split; [right; reflexivity|exact WR].
  Qed.
  Lemma tag_sound : forall cl n e s, dec_ok s -> dec_ok (ATag cl n e s).
  Proof.
    intros cl n e s K over acc cs t ts tlv c b v A W _ AC OP O FT D LV. cbn [leaves] in LV.
    assert (CF : match over with None => choice_under (ATag cl n e s) | _ => false end = false) by (destruct over; reflexivity). rewrite CF. clear CF.
    destruct (e && negb (any_under s)) eqn:EA.
    - apply andb_prop in EA. destruct EA as [-> EA]. apply negb_true_iff in EA. cbn [agrees_but] in A.
      destruct (K None (pick over (cl, n) :: acc) cs t ts tlv c b v A W ltac:(intro Q; congruence) AC OP O FT D LV) as (inner & TK & WR & CS).
      cbn [wraps] in WR. destruct WR as (k & e' & junk & IT & KF & WR). exists e'. split; [|split; [exact WR|]].
      + cbn [taken_for]. rewrite EA. cbn [negb andb]. exists k, inner, junk. split; [exact IT|]. split; [exact KF|exact TK].
      + intros B. exact (CS B).
    - assert (A' : agrees_but sk nm bd s (Some (pick over (cl, n))) acc cs t = true).
      { destruct e; [|exact A]. cbn [andb] in EA. apply negb_false_iff in EA. cbn [agrees_but] in A. rewrite (any_agrees _ _ _ _ EA) in A. exact A. }
      destruct (K (Some (pick over (cl, n))) acc cs t ts tlv c b v A' W ltac:(discriminate) AC OP O FT D LV) as (inner & TK & WR & CS).
      exists inner. split; [|split; [exact WR|]].
      + cbn [taken_for]. rewrite EA. exact TK.
      + intros B. exact (CS B).
  Qed.
  Lemma con_sound : forall c s, dec_ok s -> dec_ok (ACon c s).
  Proof.
    intros c0 s K over acc cs t ts tlv c b v A W AN AC OP O FT D LV. cbn [leaves] in LV. cbn [agrees_but] in A.
    destruct (K over acc (c0 :: cs) t ts tlv c b v A W AN AC OP O FT D LV) as (inner & TK & WR & CS). exists inner. split; [|split].
    - cbn [taken_for]. split; [|exact TK]. intros B P. specialize (CS B). unfold seen in CS. cbn [forallb] in CS. apply andb_prop in CS. destruct CS as [CS _].
      rewrite P in CS. exact CS.
    - exact WR.
    - intros B. specialize (CS B). unfold seen in CS. cbn [forallb] in CS. apply andb_prop in CS. exact (proj2 CS).
  Qed.
  Theorem all_sound : forall s, dec_ok s.
  Proof.
    induction s as [p| |fs IH|fs IH|s IH|s IH|fs IH|c n e s IH|c s IH] using sty_ind2.
    - apply prim_sound.
    - apply any_sound.
    - exact (seq_sound false fs IH).
    - exact (seq_sound true fs IH).
    - exact (of_sound false s IH).
    - exact (of_sound true s IH).
    - exact (choice_sound fs IH).
    - exact (tag_sound c n e s IH).
    - exact (con_sound c s IH).
  Qed.
  (** What is decoded was there. *)
  Theorem decode_sound_but : forall s t b v rest, agrees_but sk nm bd s None [] [] t = true -> rig s t -> octets b ->
    decode t b = Ok (v, rest) -> leaves sk s v = true -> exists e, b = e ++ rest /\ taken_for bd new s None v e.
  Proof.
    intros s t b v rest A W O D LV. unfold decode, decode_with in D.
    destruct (dec_one_sound _ _ _ _ _ (ok_val s (all_sound s) (Fld "" Req t None None) A W) O D) as (e & E & R). exists e. split; [exact E|exact (R LV)].
  Qed.
End sound.
Theorem decode_sound : forall nm bd new s t b v rest, agrees nm bd s None [] [] t = true -> rig bd new s t -> octets b ->
  decode t b = Ok (v, rest) -> exists e, b = e ++ rest /\ taken_for bd new s None v e.
Proof. intros nm bd new s t b v rest A W O D. exact (decode_sound_but [] nm bd new s t b v rest A W O D (leaves_all s v)). Qed.

End codec.
