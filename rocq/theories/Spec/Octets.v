(** The octet-level encoders of pyasn1 (Asn1/Bytes.v, Asn1/Charset.v) produce the octets of
    X.690 (Spec/X690.v), except for the integers -2^(8k-1). *)
From Coq Require Import List String ZArith NArith Bool Lia.
From Verif Require Import Asn1.Types Asn1.Bytes Asn1.Charset Asn1.Der Spec.X680 Spec.X690.
Import ListNotations.
Open Scope list_scope.
Open Scope N_scope.

(** ** Digits *)

Lemma digits_fuel : forall f g b n, 2 <= b -> (N.size_nat n <= f)%nat -> (N.size_nat n <= g)%nat -> digits_f f b n [] = digits_f g b n [].
Proof.
  induction f as [|f IH]; intros g b n Hb F G; cbn [digits_f].
  - destruct n as [|[]]; cbn in F; try lia. destruct g; reflexivity.
  - destruct g as [|g]; cbn [digits_f].
    + destruct n as [|[]]; cbn in G; try lia. reflexivity.
    + destruct (N.eqb_spec n 0) as [E|E]; [reflexivity|]. rewrite digits_f_acc, (digits_f_acc g).
      f_equal. pose proof (size_div b n Hb E). apply IH; lia.
Qed.
Lemma digits_step : forall b n, 2 <= b -> n <> 0 -> digits b n = digits b (n / b) ++ [n mod b].
Proof.
  intros b n Hb Hn. unfold digits. pose proof (size_div b n Hb Hn) as S.
  destruct (N.size_nat n) as [|f] eqn:E; [lia|]. cbn [digits_f]. destruct (N.eqb_spec n 0); [contradiction|].
  rewrite digits_f_acc. f_equal. apply digits_fuel; lia.
Qed.
Lemma size_shift : forall k n, 0 < k -> n <> 0 -> N.size (n / 2 ^ k) = N.size n - k.
Proof.
  intros k n Hk Hn. rewrite <- N.shiftr_div_pow2. rewrite (N.size_log2 n Hn).
  destruct (N.eq_dec (N.shiftr n k) 0) as [E|E].
  - rewrite E. cbn [N.size]. assert (n < 2 ^ k) as L.
    { rewrite N.shiftr_div_pow2 in E. apply N.div_small_iff in E; [exact E|]. apply N.pow_nonzero. lia. }
    apply N.log2_lt_pow2 in L; lia.
  - rewrite (N.size_log2 _ E), N.log2_shiftr. rewrite N.shiftr_div_pow2 in E.
    assert (2 ^ k <= n) as L. { apply N.nlt_ge. intro C. apply E. apply N.div_small, C. }
    apply N.log2_le_pow2 in L; lia.
Qed.
Lemma div_up : forall a k, 0 < k -> 0 < a -> (a + (k - 1)) / k = N.succ ((a - k + (k - 1)) / k).
Proof.
  intros a k Hk Ha. destruct (N.le_gt_cases k a) as [L|L].
  - replace (a + (k - 1)) with ((a - k + (k - 1)) + 1 * k) by lia. rewrite N.div_add by lia. lia.
  - replace (a - k) with 0 by lia. rewrite (N.div_small (0 + _)) by lia.
    replace (a + (k - 1)) with ((a - 1) + 1 * k) by lia. rewrite N.div_add, N.div_small by lia. reflexivity.
Qed.
Lemma digits_be : forall k, 0 < k -> forall n, digits (2 ^ k) n = be (2 ^ k) (N.to_nat ((N.size n + (k - 1)) / k)) n.
Proof.
  intros k Hk n. assert (B : 2 <= 2 ^ k). { change 2 with (2 ^ 1) at 1. apply N.pow_le_mono_r; lia. }
  induction n as [n IH] using (well_founded_induction N.lt_wf_0).
  destruct (N.eq_dec n 0) as [->|E].
  - cbn [N.size]. rewrite (N.div_small (0 + _)) by lia. reflexivity.
  - rewrite (digits_step _ _ B E), IH by (apply N.div_lt; lia). rewrite (size_shift k n Hk E).
    rewrite (div_up (N.size n) k Hk); [|rewrite N.size_log2 by exact E; lia].
    rewrite N2Nat.inj_succ. reflexivity.
Qed.

Lemma num7_spec : forall n, enc_num7 n = base128 n.
Proof.
  intro n. unfold enc_num7, base128, septets. destruct (N.eqb_spec n 0) as [->|E]; [reflexivity|].
  pose proof (digits_be 7 ltac:(lia) n) as D. change (2 ^ 7) with 128 in D. change (7 - 1) with 6 in D. rewrite D.
  rewrite Nat.max_r.
  - generalize (be 128 (N.to_nat ((N.size n + 6) / 7)) n). induction l as [|x l IH]; [reflexivity|].
    destruct l; [reflexivity|]. change (128 + x :: cont (n0 :: l) = 128 + x :: continued (n0 :: l)). rewrite IH. reflexivity.
  - assert (1 <= (N.size n + 6) / 7); [|lia]. rewrite (N.size_log2 n E).
    apply N.div_le_lower_bound; lia.
Qed.

(** ** Identifier and length octets *)

Lemma tag_spec : forall g k, enc_tag g k = identifier (tcls g) (tnum g) (tcons g || k).
Proof.
  intros [c f n] k. unfold enc_tag, identifier. cbn [tcls tcons tnum]. rewrite <- num7_spec.
  assert (F : 64 * class_num c + 32 * bit (f || k) = class_bits c + (if (f || k)%bool then 32 else 0)).
  { destruct c, (f || k)%bool; reflexivity. }
  rewrite F. destruct (N.ltb_spec n 31), (N.leb_spec n 30); try lia; reflexivity.
Qed.
Lemma be_length : forall b k n, List.length (be b k n) = k.
Proof. induction k as [|k IH]; intro n; cbn [be]; [reflexivity|]. rewrite app_length, IH. cbn. lia. Qed.
Lemma len_spec : forall n, enc_len n = length_octets n.
Proof.
  intro n. unfold enc_len, length_octets. destruct (N.ltb_spec n 128), (N.leb_spec n 127); try lia; [reflexivity|].
  pose proof (digits_be 8 ltac:(lia) n) as D. change (2 ^ 8) with 256 in D. change (8 - 1) with 7 in D. rewrite D.
  rewrite be_length, N2Nat.id. set (k := (N.size n + 7) / 8).
  destruct (N.ltb_spec 126 k), (N.leb_spec k 126); try lia; reflexivity.
Qed.
Lemma header_spec : forall g k c, enc_header g k c = tlv (tcls g) (tnum g) (tcons g || k) c.
Proof. intros. unfold enc_header, tlv. rewrite len_spec, tag_spec. reflexivity. Qed.

(** ** INTEGER *)

(** The integers pyasn1 encodes in the fewest octets: all but -2^(8k-1). *)
Definition shortest (z : Z) : bool :=
  let a := Z.abs_N z in
  negb ((z <? 0)%Z && (N.size a mod 8 =? 0) && (a =? 2 ^ (N.size a - 1))).

Lemma size_nat_size : forall n, N.of_nat (N.size_nat n) = N.size n.
Proof.
  intros [|p]; [reflexivity|]. cbn [N.size N.size_nat]. induction p as [p IH|p IH|]; cbn [Pos.size_nat Pos.size]; [| |reflexivity];
  rewrite Nat2N.inj_succ, IH; reflexivity.
Qed.
Lemma be_be_bytes : forall k n, be_bytes k n = be 256 k n.
Proof. induction k as [|k IH]; intro n; cbn [be be_bytes]; [reflexivity|]. rewrite IH. reflexivity. Qed.
Lemma int_octets_val : forall z, int_octets z = S (N.to_nat (N.size (Z.abs_N z) / 8)).
Proof.
  intro z. unfold int_octets. rewrite <- size_nat_size. set (n := N.size_nat (Z.abs_N z)).
  assert (D : N.to_nat (N.of_nat n / 8) = Nat.div n 8).
  { change 8 with (N.of_nat 8). rewrite <- Nat2N.inj_div. apply Nat2N.id. }
  rewrite D. destruct (Nat.eqb_spec (Nat.modulo n 8) 0) as [E|E].
  - pose proof (Nat.div_mod n 8 ltac:(lia)) as X. rewrite E in X.
    assert (Q : (S n = 1 + (n / 8) * 8)%nat) by lia.
    rewrite Q, Nat.mod_add, Nat.div_add by lia. cbn [Nat.modulo Nat.divmod fst snd Nat.div Nat.eqb Nat.sub]. lia.
  - destruct (Nat.eqb_spec (Nat.modulo n 8) 0); [contradiction|]. lia.
Qed.
Lemma int_spec : forall z, shortest z = true -> enc_int z = integer z.
Proof.
  intros z H. unfold enc_int, integer. destruct (Z.eqb_spec z 0) as [->|E]; [reflexivity|].
  assert (O : int_octets z = integer_octets z); [|rewrite O, be_be_bytes; reflexivity].
  rewrite int_octets_val. unfold integer_octets. f_equal. f_equal. unfold shortest in H.
  destruct (Z.ltb_spec z 0) as [L|L].
  - replace (Z.to_N (- z - 1)) with (Z.abs_N z - 1) by lia. set (a := Z.abs_N z) in *. assert (A : a <> 0) by lia. clearbody a.
    cbn [andb] in H. apply negb_true_iff in H.
    destruct (N.eq_dec (a - 1) 0) as [A1|A1]. { assert (a = 1) by lia. subst. reflexivity. }
    destruct (N.eq_dec (N.size a) (N.size (a - 1))) as [S|S]; [rewrite S; reflexivity|].
    rewrite (N.size_log2 a A), (N.size_log2 (a - 1) A1) in *.
    pose proof (N.log2_spec a ltac:(lia)) as [P1 P2]. pose proof (N.log2_spec (a - 1) ltac:(lia)) as [Q1 Q2].
    assert (LE : N.log2 (a - 1) <= N.log2 a) by (apply N.log2_le_mono; lia).
    assert (LT : N.succ (N.log2 (a - 1)) <= N.log2 a) by lia.
    pose proof (N.pow_le_mono_r 2 _ _ ltac:(lia) LT) as PW.
    assert (AP : a = 2 ^ N.log2 a) by lia.
    replace (N.succ (N.log2 a) - 1) with (N.log2 a) in H by lia. rewrite <- AP, N.eqb_refl, andb_true_r in H.
    apply N.eqb_neq in H.
    assert (EQ : N.log2 a = N.succ (N.log2 (a - 1))).
    { destruct (N.eq_dec (N.log2 a) (N.succ (N.log2 (a - 1)))) as [X|X]; [exact X|].
      assert (N.succ (N.succ (N.log2 (a - 1))) <= N.log2 a) as L2 by lia.
      pose proof (N.pow_le_mono_r 2 _ _ ltac:(lia) L2) as PW2. rewrite (N.pow_succ_r' 2 (N.succ _)) in PW2.
      pose proof (N.pow_nonzero 2 (N.succ (N.log2 (a - 1))) ltac:(lia)). exfalso. clear H P2 AP. set (p := 2 ^ N.succ (N.log2 (a - 1))) in *. set (q := 2 ^ N.log2 a) in *. clearbody p q. lia. }
    rewrite EQ in *. set (j := N.log2 (a - 1)) in *. clearbody j.
    pose proof (N.div_mod (N.succ (N.succ j)) 8 ltac:(lia)) as DM. pose proof (N.mod_lt (N.succ (N.succ j)) 8 ltac:(lia)).
    clear - H H0 DM. set (m := N.succ (N.succ j) mod 8) in *. set (q := N.succ (N.succ j) / 8) in *. clearbody m q.
    apply N.div_unique with (r := m - 1); lia.
  - replace (Z.to_N z) with (Z.abs_N z) by lia. reflexivity.
Qed.

(** ** BIT STRING *)

Lemma octet_spec : forall l, l <> [] -> bits_val (firstn 8 (l ++ repeat false 7)) 0 = octet_of_bits (firstn 8 l) 128.
Proof.
  intros l H.
  destruct l as [|b1 [|b2 [|b3 [|b4 [|b5 [|b6 [|b7 [|b8 l]]]]]]]]; [congruence|..];
  cbn [app repeat firstn bits_val octet_of_bits];
  change (128 / 2) with 64; change (64 / 2) with 32; change (32 / 2) with 16; change (16 / 2) with 8;
  change (8 / 2) with 4; change (4 / 2) with 2; change (2 / 2) with 1; unfold bit;
  repeat match goal with b : bool |- _ => destruct b end; reflexivity.
Qed.
Lemma pack_spec : forall f l, (List.length l <= f)%nat -> pack f l = octets_of_bits (Nat.div (List.length l + 7) 8) l.
Proof.
  induction f as [|f IH]; intros l H.
  - destruct l; [reflexivity|cbn in H; lia].
  - destruct l as [|b l]; [reflexivity|].
    assert (D : Nat.div (List.length (b :: l) + 7) 8 = S (Nat.div (List.length (skipn 8 (b :: l)) + 7) 8)).
    { rewrite skipn_length. destruct (Nat.le_gt_cases 8 (List.length (b :: l))) as [L|L].
      - replace (List.length (b :: l) + 7)%nat with ((List.length (b :: l) - 8 + 7) + 1 * 8)%nat by lia.
        rewrite Nat.div_add by lia. lia.
      - replace (List.length (b :: l) - 8)%nat with 0%nat by lia. cbn [Nat.add].
        cbn [List.length] in L |- *. replace (S (List.length l) + 7)%nat with (List.length l + 1 * 8)%nat by lia.
        rewrite Nat.div_add, Nat.div_small by lia. reflexivity. }
    rewrite D. change (pack (S f) (b :: l)) with (bits_val (firstn 8 ((b :: l) ++ repeat false 7)) 0 :: pack f (skipn 8 (b :: l))).
    rewrite octet_spec by discriminate. cbn [octets_of_bits]. f_equal. apply IH. rewrite skipn_length. cbn [List.length] in *. lia.
Qed.
Lemma octets_of_bits_length : forall k l, List.length (octets_of_bits k l) = k.
Proof. induction k as [|k IH]; intro l; cbn [octets_of_bits List.length]; [reflexivity|]. rewrite IH. reflexivity. Qed.
Lemma bits_spec : forall l, enc_bits l = bit_string l.
Proof.
  intro l. unfold enc_bits, bit_string. rewrite pack_spec by lia. rewrite octets_of_bits_length.
  f_equal. set (k := Nat.div (List.length l + 7) 8). lia.
Qed.

(** ** OBJECT IDENTIFIER *)

Lemma oid_spec : forall a, arcs_ok a = true -> enc_oid a = object_identifier a.
Proof.
  intros a H. destruct a as [|x [|y r]]; try discriminate. cbn [arcs_ok] in H. apply andb_true_iff in H. destruct H as [A B].
  apply N.leb_le in A. unfold enc_oid, object_identifier.
  assert (F : forall l, flat_map enc_num7 l = flat_map base128 l).
  { induction l as [|z l IH]; [reflexivity|]. cbn [flat_map]. rewrite num7_spec, IH. reflexivity. }
  destruct (N.leb_spec y 39).
  - rewrite (proj2 (N.leb_le x 2) A), F. do 2 f_equal. f_equal. lia.
  - apply orb_true_iff in B. destruct B as [B|B]; [|discriminate]. rewrite B. apply N.eqb_eq in B. subst.
    rewrite F. do 2 f_equal. f_equal. lia.
Qed.

(** ** Character strings *)

Lemma flat_map_ext_in : forall (f g : N -> list N) l, (forall c, In c l -> f c = g c) -> flat_map f l = flat_map g l.
Proof.
  induction l as [|c l IH]; intro H; [reflexivity|]. cbn [flat_map]. rewrite H by (left; reflexivity).
  rewrite IH; [reflexivity|]. intros; apply H; right; assumption.
Qed.
Lemma text_by_char : forall k t, (forall c, In c t -> encodable (charset_of k) c = true) ->
  (forall c, In c t -> enc_char (charset_of k) c = characters k [c]) -> enc_text (charset_of k) t = Some (characters k t).
Proof.
  intros k t E C. unfold enc_text. rewrite (proj2 (forallb_forall _ _) E). f_equal. unfold characters. apply flat_map_ext_in.
  intros c I. rewrite (C c I). unfold characters. cbn [flat_map]. apply app_nil_r.
Qed.
Lemma unicode_scalar : forall c, unicode c = true -> scalar c = true /\ c < 1114112.
Proof.
  intros c H. unfold unicode, between in H. apply orb_true_iff in H. rewrite andb_true_iff, !N.leb_le in H.
  split; [apply scalar_intro; lia|lia].
Qed.
Lemma printable_ascii : forall c, printable c = true -> c < 128.
Proof.
  intros c H. unfold printable, letter_digit, between in H. rewrite !orb_true_iff, !andb_true_iff, !N.leb_le in H.
  cbn [existsb] in H. rewrite !orb_true_iff, !N.eqb_eq in H. intuition (try discriminate; lia).
Qed.
Lemma be2 : forall c, c < 65536 -> be 256 2 c = [c / 256; c mod 256].
Proof.
  intros c H. cbn [be app]. f_equal. apply N.mod_small. apply N.div_lt_upper_bound; lia.
Qed.
Lemma be4 : forall c, c < 4294967296 -> be 256 4 c = [c / 16777216; c / 65536 mod 256; c / 256 mod 256; c mod 256].
Proof.
  intros c H. cbn [be app]. rewrite !N.div_div by lia. cbn [N.mul Pos.mul].
  f_equal. apply N.mod_small. apply N.div_lt_upper_bound; [lia|]. exact H.
Qed.
Lemma text_spec : forall k t, text_ok k t = true -> enc_text (charset_of k) t = Some (characters k t).
Proof.
  intros k t H.
  assert (ASC : (forall c, In c t -> c < 128) -> charset_of k = Ascii \/ charset_of k = Latin1 -> enc_text (charset_of k) t = Some (characters k t)).
  { intros L [S|S]; apply text_by_char; intros c I; rewrite S; specialize (L c I); cbn [encodable enc_char];
    try (apply N.ltb_lt; lia); destruct k; try discriminate S; reflexivity. }
  assert (DIG : forall c, digit c = true -> c < 128).
  { intros c D. unfold digit, between in D. rewrite andb_true_iff, !N.leb_le in D. lia. }
  assert (TIME : (forall a, forallb digit (firstn (List.length a - 1) a) = true -> last a 0 = 90 -> forall c, In c a -> c < 128)).
  { intros a D L c I. destruct (exists_last (l := a)) as (b & z & ->). { intro E; subst; destruct I. }
    rewrite last_last in L. subst z. rewrite app_length in D. cbn [List.length] in D.
    replace (List.length b + 1 - 1)%nat with (List.length b) in D by lia. rewrite firstn_app, Nat.sub_diag, firstn_all in D.
    cbn [firstn] in D. rewrite app_nil_r in D. apply in_app_or in I. destruct I as [I|[<-|[]]]; [|lia].
    apply DIG, (proj1 (forallb_forall _ _) D c I). }
  destruct k; cbn [text_ok] in H;
  try (apply ASC; [intros c I; pose proof (proj1 (forallb_forall _ _) H c I) as K; cbv beta in K|cbn; tauto]);
  try (apply printable_ascii, K); try (apply N.leb_le in K; lia).
  - (* UTF8 *) apply text_by_char; intros c I; pose proof (unicode_scalar c (proj1 (forallb_forall _ _) H c I)) as [K L].
    + exact K.
    + cbn [charset_of enc_char]. unfold characters. cbn [flat_map]. rewrite app_nil_r. unfold utf8.
      destruct (N.ltb_spec c 128), (N.leb_spec c 127); try lia; [reflexivity|].
      destruct (N.ltb_spec c 2048), (N.leb_spec c 2047); try lia; [reflexivity|].
      destruct (N.ltb_spec c 65536), (N.leb_spec c 65535); try lia; reflexivity.
  - (* Numeric *) apply orb_true_iff in K. destruct K as [K|K]; [apply DIG, K|apply N.eqb_eq in K; lia].
  - (* Visible *) unfold between in K. rewrite andb_true_iff, !N.leb_le in K. lia.
  - (* Universal *) apply text_by_char; intros c I; pose proof (unicode_scalar c (proj1 (forallb_forall _ _) H c I)) as [K L].
    + exact K.
    + cbn [charset_of enc_char]. unfold characters. cbn [flat_map]. rewrite app_nil_r, be4 by lia. reflexivity.
  - (* BMP *) apply text_by_char; intros c I; pose proof (proj1 (forallb_forall _ _) H c I) as K; cbv beta in K;
      apply andb_true_iff in K; destruct K as [K L]; apply N.leb_le in L; pose proof (unicode_scalar c K) as [K' _].
    + exact K'.
    + cbn [charset_of enc_char]. destruct (N.ltb_spec c 65536); [|lia]. unfold characters. cbn [flat_map]. rewrite app_nil_r, be2 by lia. reflexivity.
  - (* GeneralizedTime *)
    apply ASC; [|cbn; tauto]. unfold generalized_time in H.
    assert (SPLIT : forall t, t = match split_at_dot t with (a, None) => a | (a, Some f) => a ++ 46 :: f end).
    { clear. induction t as [|c t IH]; [reflexivity|]. cbn [split_at_dot]. destruct (N.eqb_spec c 46) as [->|E]; [reflexivity|].
      destruct (split_at_dot t) as [a [f|]]; rewrite IH at 1; reflexivity. }
    specialize (SPLIT t). destruct (split_at_dot t) as [a [f|]].
    + apply andb_true_iff in H. destruct H as [H F]. apply andb_true_iff in H. destruct H as [_ H].
      rewrite SPLIT. intros c I. apply in_app_or in I. destruct I as [I|[<-|I]]; [apply DIG, (proj1 (forallb_forall _ _) H c I)|lia|].
      apply in_rev in I. destruct (rev f) as [|z [|d f']]; try discriminate F.
      rewrite !andb_true_iff, N.eqb_eq in F. destruct F as (((Z & D) & _) & F). destruct I as [<-|[<-|I]]; [lia|apply DIG, D|].
      apply DIG, (proj1 (forallb_forall _ _) F c I).
    + subst a. apply andb_true_iff in H. destruct H as [H L]. apply andb_true_iff in H. destruct H as [N H].
      apply Nat.eqb_eq in N. apply N.eqb_eq in L. apply TIME; [rewrite N; exact H|exact L].
  - (* UTCTime *)
    apply ASC; [|cbn; tauto]. unfold utc_time in H. apply andb_true_iff in H. destruct H as [H L]. apply andb_true_iff in H. destruct H as [N H].
    apply Nat.eqb_eq in N. apply N.eqb_eq in L. apply TIME; [rewrite N; exact H|exact L].
Qed.
