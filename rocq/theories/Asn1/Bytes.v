(** Octet-level encodings used by pyasn1's DER codec (version 0.4.8):
    identifier and length octets, INTEGER, OBJECT IDENTIFIER, BIT STRING and
    character string contents, with round-trip lemmas.

    Models pyasn1/codec/ber/{encoder,decoder}.py (encodeTag, encodeLength, the tag and
    length states of Decoder.__call__, the value codecs) and pyasn1/compat/integer.py. *)
From Coq Require Import List ZArith NArith Bool Lia.
From Verif Require Import Asn1.Types.
Import ListNotations.
Open Scope list_scope.
Open Scope N_scope.

Definition bytes := list N.
Definition is_byte (b : N) : bool := b <? 256.

(** ** Big-endian digits *)

(** Minimal digits of [n] in base [b], most significant first; [] for 0. *)
Fixpoint digits_f (fuel : nat) (b n : N) (acc : list N) : list N :=
  match fuel with
  | O => acc
  | S f => if n =? 0 then acc else digits_f f b (n / b) (n mod b :: acc)
  end.
Definition digits (b n : N) : list N := digits_f (N.size_nat n) b n [].
Definition undigits (b : N) (l : list N) : N := fold_left (fun a d => a * b + d) l 0.

Lemma undigits_app : forall b l1 l2, undigits b (l1 ++ l2) = fold_left (fun a d => a * b + d) l2 (undigits b l1).
Proof. intros. unfold undigits. apply fold_left_app. Qed.
Lemma undigits_snoc : forall b l d, undigits b (l ++ [d]) = undigits b l * b + d.
Proof. intros. rewrite undigits_app. reflexivity. Qed.

Lemma digits_f_acc : forall f b n acc, digits_f f b n acc = digits_f f b n [] ++ acc.
Proof.
  induction f as [|f IH]; intros b n acc; cbn [digits_f]; [reflexivity|].
  destruct (n =? 0); [reflexivity|]. rewrite IH, (IH b (n / b) [n mod b]), <- app_assoc. reflexivity.
Qed.

Lemma size_div : forall b n, 2 <= b -> n <> 0 -> (N.size_nat (n / b) < N.size_nat n)%nat.
Proof.
  intros b n Hb Hn.
  assert (H : n / b <= N.div2 n).
  { rewrite N.div2_div. apply N.div_le_compat_l. lia. }
  assert (S : N.size_nat (N.div2 n) = Nat.pred (N.size_nat n)) by (destruct n as [|[]]; reflexivity).
  assert (P : (0 < N.size_nat n)%nat) by (destruct n as [|[]]; cbn; lia).
  assert (M : forall a c, a <= c -> (N.size_nat a <= N.size_nat c)%nat).
  { intros a c L. 
    assert (Q : forall x, x <> 0 -> N.of_nat (N.size_nat x) = N.succ (N.log2 x)).
    { intros x Hx. destruct x as [|p]; [lia|]. clear. induction p; cbn [N.size_nat Pos.size_nat N.log2] in *; try reflexivity;
        destruct p; cbn in *; lia. }
    destruct (N.eq_dec a 0) as [->|Ha]; [cbn; lia|].
    pose proof (N.log2_le_mono _ _ L). pose proof (Q a Ha). assert (Hc : c <> 0) by lia. pose proof (Q c Hc). lia. }
  specialize (M _ _ H). lia.
Qed.

Lemma digits_f_value : forall f b n, 2 <= b -> (N.size_nat n <= f)%nat -> undigits b (digits_f f b n []) = n.
Proof.
  induction f as [|f IH]; intros b n Hb Hf; cbn [digits_f].
  - destruct n as [|[]]; cbn in *; try lia.
  - destruct (n =? 0) eqn:E; [apply N.eqb_eq in E; subst; reflexivity|]. apply N.eqb_neq in E.
    rewrite digits_f_acc, undigits_snoc, IH; [|lia|pose proof (size_div b n Hb E); lia].
    rewrite N.mul_comm. symmetry. apply N.div_mod'. 
Qed.
Lemma digits_value : forall b n, 2 <= b -> undigits b (digits b n) = n.
Proof. intros. apply digits_f_value; auto. Qed.

Lemma digits_f_bound : forall f b n, 2 <= b -> Forall (fun d => d < b) (digits_f f b n []).
Proof.
  induction f as [|f IH]; intros b n Hb; cbn [digits_f]; [constructor|].
  destruct (n =? 0); [constructor|]. rewrite digits_f_acc. apply Forall_app. split; [apply IH, Hb|].
  constructor; [apply N.mod_lt; lia|constructor].
Qed.
Lemma digits_bound : forall b n, 2 <= b -> Forall (fun d => d < b) (digits b n).
Proof. intros. apply digits_f_bound; auto. Qed.

Lemma digits_nonempty : forall b n, 2 <= b -> n <> 0 -> digits b n <> [].
Proof.
  intros b n Hb Hn E. pose proof (digits_value b n Hb) as V. rewrite E in V. cbn in V. lia.
Qed.

(** ** Base-128 numbers with continuation bits (long tags, OID arcs) *)

Fixpoint cont (l : list N) : bytes :=
  match l with
  | [] => []
  | [d] => [d]
  | d :: l' => 128 + d :: cont l'
  end.
Definition enc_num7 (n : N) : bytes := if n =? 0 then [0] else cont (digits 128 n).

Fixpoint dec_num7 (acc : N) (s : bytes) : option (N * bytes) :=
  match s with
  | [] => None
  | b :: s' => let acc' := acc * 128 + b mod 128 in
               if b <? 128 then Some (acc', s') else dec_num7 acc' s'
  end.

Lemma dec_num7_cont : forall l acc rest, l <> [] -> Forall (fun d => d < 128) l ->
  dec_num7 acc (cont l ++ rest) = Some (fold_left (fun a d => a * 128 + d) l acc, rest).
Proof.
  induction l as [|d l IH]; intros acc rest Hn Hb; [congruence|]. inversion Hb; subst.
  destruct l as [|d' l].
  - cbn [cont app dec_num7 fold_left]. rewrite N.mod_small by lia.
    destruct (N.ltb_spec d 128); [reflexivity|lia].
  - cbn [cont app dec_num7]. destruct (N.ltb_spec (128 + d) 128); [lia|].
    replace ((128 + d) mod 128) with d.
    + change (cont (d' :: l)) with (cont (d' :: l)). rewrite IH; [reflexivity|discriminate|assumption].
    + replace (128 + d) with (d + 1 * 128) by lia. rewrite N.mod_add by lia. symmetry. apply N.mod_small. lia.
Qed.
Lemma dec_enc_num7 : forall n rest, dec_num7 0 (enc_num7 n ++ rest) = Some (n, rest).
Proof.
  intros n rest. unfold enc_num7. destruct (n =? 0) eqn:E.
  - apply N.eqb_eq in E. subst. reflexivity.
  - apply N.eqb_neq in E. rewrite dec_num7_cont.
    + f_equal. f_equal. apply (digits_value 128 n). lia.
    + apply digits_nonempty; lia.
    + apply digits_bound; lia.
Qed.
Lemma cont_bytes : forall l, Forall (fun d => d < 128) l -> forallb is_byte (cont l) = true.
Proof.
  induction l as [|d l IH]; intro H; [reflexivity|]. inversion H; subst. destruct l as [|d' l].
  - cbn. unfold is_byte. rewrite (proj2 (N.ltb_lt d 256)) by lia. reflexivity.
  - change (cont (d :: d' :: l)) with (128 + d :: cont (d' :: l)). cbn [forallb].
    rewrite IH by assumption. unfold is_byte. rewrite (proj2 (N.ltb_lt (128 + d) 256)) by lia. reflexivity.
Qed.
Lemma enc_num7_bytes : forall n, forallb is_byte (enc_num7 n) = true.
Proof.
  intro n. unfold enc_num7. destruct (n =? 0); [reflexivity|]. apply cont_bytes, digits_bound. lia.
Qed.

(** ** Identifier octets *)

Definition class_num (c : tclass) : N := match c with Universal => 0 | Application => 1 | Context => 2 | Private => 3 end.
Definition class_of (n : N) : tclass :=
  match n with 0 => Universal | 1 => Application | 2 => Context | _ => Private end.
Definition bit (b : bool) : N := if b then 1 else 0.

(** AbstractItemEncoder.encodeTag (ber/encoder.py) *)
Definition enc_tag (t : tag) (constructed : bool) : bytes :=
  let first := 64 * class_num (tcls t) + 32 * bit (tcons t || constructed) in
  if tnum t <? 31 then [first + tnum t] else first + 31 :: enc_num7 (tnum t).

(** State stDecodeTag of Decoder.__call__ (ber/decoder.py) *)
Definition dec_tag (s : bytes) : option (tag * bytes) :=
  match s with
  | [] => None
  | b :: s' =>
      let c := class_of (b / 64) in
      let k := negb ((b / 32) mod 2 =? 0) in
      let id := b mod 32 in
      if id =? 31 then
        match dec_num7 0 s' with
        | Some (n, s'') => Some (mkTag c k n, s'')
        | None => None
        end
      else Some (mkTag c k id, s')
  end.

Lemma class_of_num : forall c, class_of (class_num c) = c.
Proof. destruct c; reflexivity. Qed.

Lemma first_octet : forall c k id, id < 32 -> let b := 64 * class_num c + 32 * bit k + id in
  class_of (b / 64) = c /\ negb ((b / 32) mod 2 =? 0) = k /\ b mod 32 = id.
Proof.
  intros c k id H b. subst b.
  assert (Hk : bit k < 2) by (destruct k; cbn; lia).
  split; [|split].
  - replace (64 * class_num c + 32 * bit k + id) with (32 * bit k + id + class_num c * 64) by lia.
    rewrite N.div_add by lia. rewrite N.div_small by lia. cbn [N.add]. apply class_of_num.
  - replace (64 * class_num c + 32 * bit k + id) with (id + (bit k + class_num c * 2) * 32) by lia.
    rewrite N.div_add by lia. rewrite (N.div_small id) by lia. rewrite N.add_0_l.
    rewrite N.mod_add by lia. destruct k; reflexivity.
  - replace (64 * class_num c + 32 * bit k + id) with (id + (bit k + class_num c * 2) * 32) by lia.
    rewrite N.mod_add by lia. apply N.mod_small, H.
Qed.

Lemma dec_enc_tag : forall t k rest,
  dec_tag (enc_tag t k ++ rest) = Some (mkTag (tcls t) (tcons t || k) (tnum t), rest).
Proof.
  intros t k rest. unfold enc_tag. destruct (N.ltb_spec (tnum t) 31) as [L|L].
  - cbn [app dec_tag]. destruct (first_octet (tcls t) (tcons t || k) (tnum t)) as (A & B & C); [lia|].
    cbv zeta in A, B, C. rewrite A, B, C. destruct (N.eqb_spec (tnum t) 31); [lia|reflexivity].
  - cbn [app dec_tag]. destruct (first_octet (tcls t) (tcons t || k) 31) as (A & B & C); [lia|].
    cbv zeta in A, B, C. rewrite A, B, C. rewrite N.eqb_refl, dec_enc_num7. reflexivity.
Qed.

Lemma enc_tag_nonempty : forall t k, enc_tag t k <> [].
Proof. intros t k. unfold enc_tag. destruct (tnum t <? 31); discriminate. Qed.

Lemma class_num_bound : forall c, class_num c < 4.
Proof. destruct c; cbn; lia. Qed.
Lemma enc_tag_bytes : forall t k, forallb is_byte (enc_tag t k) = true.
Proof.
  intros t k. unfold enc_tag. pose proof (class_num_bound (tcls t)).
  assert (bit (tcons t || k) < 2) by (destruct (tcons t || k); cbn; lia).
  destruct (N.ltb_spec (tnum t) 31); cbn [forallb]; unfold is_byte at 1; rewrite (proj2 (N.ltb_lt _ 256)) by lia.
  - reflexivity.
  - apply enc_num7_bytes.
Qed.

(** ** Length octets *)

(** AbstractItemEncoder.encodeLength, definite mode *)
Definition enc_len (n : N) : option bytes :=
  if n <? 128 then Some [n]
  else let d := digits 256 n in
       if 126 <? N.of_nat (length d) then None else Some (128 + N.of_nat (length d) :: d).

(** Take [n] octets. *)
Definition take (n : N) (s : bytes) : option (bytes * bytes) :=
  if N.of_nat (length s) <? n then None else Some (firstn (N.to_nat n) s, skipn (N.to_nat n) s).

(** State stDecodeLength; DER: supportIndefLength = False. *)
Definition dec_len (s : bytes) : option (N * bytes) :=
  match s with
  | [] => None
  | b :: s' =>
      if b <? 128 then Some (b, s')
      else if b =? 128 then None
      else match take (b mod 128) s' with
           | Some (d, s'') => Some (undigits 256 d, s'')
           | None => None
           end
  end.

Lemma take_app : forall a b, take (N.of_nat (length a)) (a ++ b) = Some (a, b).
Proof.
  intros a b. unfold take. rewrite app_length.
  destruct (N.ltb_spec (N.of_nat (length a + length b)) (N.of_nat (length a))); [lia|].
  rewrite Nat2N.id, firstn_app, skipn_app, Nat.sub_diag, firstn_all, skipn_all. cbn. rewrite app_nil_r. reflexivity.
Qed.

Lemma take_inv : forall n s a b, take n s = Some (a, b) -> s = a ++ b /\ N.of_nat (length a) = n.
Proof.
  intros n s a b H. unfold take in H. destruct (N.ltb_spec (N.of_nat (length s)) n) as [L|L]; [discriminate|].
  inversion H; subst. split; [symmetry; apply firstn_skipn|]. rewrite firstn_length. lia.
Qed.

Lemma dec_len_long : forall k d rest, k = N.of_nat (length d) -> 0 < k -> k < 128 ->
  dec_len ((128 + k :: d) ++ rest) = Some (undigits 256 d, rest).
Proof.
  intros k d rest E L U. unfold dec_len. change ((128 + k :: d) ++ rest) with (128 + k :: d ++ rest). cbv beta iota.
  destruct (N.ltb_spec (128 + k) 128); [lia|]. destruct (N.eqb_spec (128 + k) 128); [lia|].
  replace ((128 + k) mod 128) with k.
  - rewrite E, take_app. reflexivity.
  - replace (128 + k) with (k + 1 * 128) by lia. rewrite N.mod_add by lia. symmetry. apply N.mod_small. lia.
Qed.

Lemma dec_enc_len : forall n l rest, enc_len n = Some l -> dec_len (l ++ rest) = Some (n, rest).
Proof.
  intros n l rest H. unfold enc_len in H. destruct (N.ltb_spec n 128) as [L|L].
  - inversion H; subst. cbn [app dec_len]. destruct (N.ltb_spec n 128); [reflexivity|lia].
  - destruct (N.ltb_spec 126 (N.of_nat (length (digits 256 n)))) as [B|B]; [discriminate|].
    assert (0 < N.of_nat (length (digits 256 n))).
    { pose proof (digits_nonempty 256 n) as NE. destruct (digits 256 n); [exfalso; apply NE; [lia|lia|reflexivity]|cbn [length]; lia]. }
    apply (f_equal (fun o => match o with Some x => x | None => [] end)) in H. cbv beta iota zeta in H. rewrite <- H.
    rewrite dec_len_long by lia. rewrite digits_value by lia. reflexivity.
Qed.

Lemma digits_bytes : forall n, forallb is_byte (digits 256 n) = true.
Proof.
  intro n. apply forallb_forall. intros x H. pose proof (digits_bound 256 n ltac:(lia)) as B.
  rewrite Forall_forall in B. apply N.ltb_lt, B, H.
Qed.
Lemma enc_len_bytes : forall n l, enc_len n = Some l -> forallb is_byte l = true /\ l <> [].
Proof.
  intros n l H. unfold enc_len in H. destruct (N.ltb_spec n 128) as [L|L].
  - inversion H; subst. split; [|discriminate]. cbn. unfold is_byte. rewrite (proj2 (N.ltb_lt n 256)) by lia. reflexivity.
  - destruct (N.ltb_spec 126 (N.of_nat (length (digits 256 n)))) as [B|B]; [discriminate|].
    apply (f_equal (fun o => match o with Some x => x | None => [] end)) in H. cbv beta iota zeta in H. rewrite <- H.
    split; [|discriminate]. cbn [forallb]. rewrite digits_bytes, andb_true_r.
    apply N.ltb_lt. lia.
Qed.

(** ** One header *)

(** Tag, number of header octets, content, remaining input. *)
Definition dec_header (s : bytes) : option (tag * bytes * bytes) :=
  match dec_tag s with
  | None => None
  | Some (t, s1) => match dec_len s1 with
                    | None => None
                    | Some (n, s2) => match take n s2 with
                                      | None => None
                                      | Some (c, rest) => Some (t, c, rest)
                                      end
                    end
  end.
Definition enc_header (t : tag) (k : bool) (c : bytes) : option bytes :=
  match enc_len (N.of_nat (length c)) with
  | Some l => Some (enc_tag t k ++ l ++ c)
  | None => None
  end.

Lemma dec_enc_header : forall t k c s rest, enc_header t k c = Some s ->
  dec_header (s ++ rest) = Some (mkTag (tcls t) (tcons t || k) (tnum t), c, rest).
Proof.
  intros t k c s rest H. unfold enc_header in H. destruct (enc_len (N.of_nat (length c))) as [l|] eqn:E; [|discriminate].
  inversion H; subst. unfold dec_header. rewrite <- app_assoc, dec_enc_tag, <- app_assoc, (dec_enc_len _ _ _ E), take_app.
  reflexivity.
Qed.

Lemma dec_num7_inv : forall s acc n r, dec_num7 acc s = Some (n, r) -> exists a, s = a ++ r /\ a <> [].
Proof.
  induction s as [|b s IH]; intros acc n r H; cbn [dec_num7] in H; [discriminate|]. cbv zeta in H.
  destruct (b <? 128).
  - inversion H; subst. exists [b]. split; [reflexivity|discriminate].
  - destruct (IH _ _ _ H) as (a & -> & _). exists (b :: a). split; [reflexivity|discriminate].
Qed.
Lemma dec_tag_inv : forall s t r, dec_tag s = Some (t, r) -> exists a, s = a ++ r /\ a <> [].
Proof.
  intros [|b s] t r H; cbn [dec_tag] in H; [discriminate|]. cbv zeta in H.
  destruct (b mod 32 =? 31).
  - destruct (dec_num7 0 s) as [[n s']|] eqn:E; [|discriminate]. inversion H; subst.
    destruct (dec_num7_inv _ _ _ _ E) as (a & -> & _). exists (b :: a). split; [reflexivity|discriminate].
  - inversion H; subst. exists [b]. split; [reflexivity|discriminate].
Qed.
Lemma dec_len_inv : forall s n r, dec_len s = Some (n, r) -> exists a, s = a ++ r /\ a <> [].
Proof.
  intros [|b s] n r H; cbn [dec_len] in H; [discriminate|].
  destruct (b <? 128); [inversion H; subst; exists [n]; split; [reflexivity|discriminate]|].
  destruct (b =? 128); [discriminate|].
  destruct (take (b mod 128) s) as [[d s']|] eqn:E; [|discriminate]. inversion H; subst.
  apply take_inv in E. destruct E as [-> _]. exists (b :: d). split; [reflexivity|discriminate].
Qed.
(** A decoded header splits the input. *)
Lemma dec_header_inv : forall s t c r, dec_header s = Some (t, c, r) -> exists h, s = h ++ c ++ r /\ (2 <= length h)%nat.
Proof.
  intros s t c r H. unfold dec_header in H.
  destruct (dec_tag s) as [[t' s1]|] eqn:E1; [|discriminate].
  destruct (dec_len s1) as [[n s2]|] eqn:E2; [|discriminate].
  destruct (take n s2) as [[c' r']|] eqn:E3; [|discriminate]. inversion H; subst.
  apply dec_tag_inv in E1. destruct E1 as (a & -> & Ha). apply dec_len_inv in E2. destruct E2 as (b & -> & Hb).
  apply take_inv in E3. destruct E3 as [-> _]. exists (a ++ b). split; [rewrite <- app_assoc; reflexivity|].
  rewrite app_length. destruct a; [congruence|]. destruct b; [congruence|]. cbn. lia.
Qed.

(** More input after a header's item changes nothing but the remainder. *)
Lemma dec_num7_ext : forall s acc n r x, dec_num7 acc s = Some (n, r) -> dec_num7 acc (s ++ x) = Some (n, r ++ x).
Proof.
  induction s as [|b s IH]; intros acc n r x H; [discriminate|]. cbn [app dec_num7] in *. cbv zeta in *.
  destruct (b <? 128); [congruence|apply IH, H].
Qed.
Lemma dec_tag_ext : forall s t r x, dec_tag s = Some (t, r) -> dec_tag (s ++ x) = Some (t, r ++ x).
Proof.
  intros [|b s] t r x H; [discriminate|]. cbn [app dec_tag] in *. cbv zeta in *. destruct (b mod 32 =? 31); [|inversion H; subst; reflexivity].
  destruct (dec_num7 0 s) as [[n s']|] eqn:E; [|discriminate]. rewrite (dec_num7_ext _ _ _ _ x E). inversion H; subst. reflexivity.
Qed.
Lemma take_ext : forall n s a b x, take n s = Some (a, b) -> take n (s ++ x) = Some (a, b ++ x).
Proof.
  intros n s a b x H. destruct (take_inv _ _ _ _ H) as [-> <-]. rewrite <- app_assoc. apply take_app.
Qed.
Lemma dec_len_ext : forall s n r x, dec_len s = Some (n, r) -> dec_len (s ++ x) = Some (n, r ++ x).
Proof.
  intros [|b s] n r x H; [discriminate|]. cbn [app dec_len] in *. destruct (b <? 128); [(inversion H; subst; reflexivity)|].
  destruct (b =? 128); [discriminate|]. destruct (take (b mod 128) s) as [[d s']|] eqn:E; [|discriminate].
  rewrite (take_ext _ _ _ _ x E). inversion H; subst; reflexivity.
Qed.
Lemma dec_header_ext : forall s t c r x, dec_header s = Some (t, c, r) -> dec_header (s ++ x) = Some (t, c, r ++ x).
Proof.
  intros s t c r x H. unfold dec_header in *. destruct (dec_tag s) as [[t' s1]|] eqn:A; [|discriminate].
  rewrite (dec_tag_ext _ _ _ x A). destruct (dec_len s1) as [[n s2]|] eqn:B; [|discriminate].
  rewrite (dec_len_ext _ _ _ x B). destruct (take n s2) as [[c' r']|] eqn:D; [|discriminate].
  rewrite (take_ext _ _ _ _ x D). inversion H; subst; reflexivity.
Qed.

(** ** INTEGER contents *)

(** int.to_bytes(n, 'big') of a non-negative number below 256^n *)
Fixpoint be_bytes (n : nat) (z : N) : bytes :=
  match n with O => [] | S k => be_bytes k (z / 256) ++ [z mod 256] end.
Lemma be_bytes_value : forall n z, z < 256 ^ N.of_nat n -> undigits 256 (be_bytes n z) = z.
Proof.
  induction n as [|n IH]; intros z H.
  - cbn in *. lia.
  - cbn [be_bytes]. rewrite undigits_snoc, IH.
    + rewrite N.mul_comm. symmetry. apply N.div_mod'.
    + apply N.div_lt_upper_bound; [lia|]. rewrite Nat2N.inj_succ, N.pow_succ_r' in H. lia.
Qed.
Lemma be_bytes_length : forall n z, length (be_bytes n z) = n.
Proof. induction n as [|n IH]; intro z; cbn [be_bytes]; [reflexivity|]. rewrite app_length, IH. cbn. lia. Qed.
Lemma be_bytes_bytes : forall n z, forallb is_byte (be_bytes n z) = true.
Proof.
  induction n as [|n IH]; intro z; cbn [be_bytes]; [reflexivity|]. rewrite forallb_app, IH. cbn.
  unfold is_byte. rewrite (proj2 (N.ltb_lt _ 256)); [reflexivity|]. apply N.mod_lt. lia.
Qed.

(** compat.integer.to_bytes(value, signed=True): number of octets.  (For -2^(8k-1)
    this is one more than X.690 8.3.2 allows.) *)
Definition int_octets (z : Z) : nat :=
  let n := N.size_nat (Z.abs_N z) in
  let n := if Nat.eqb (Nat.modulo n 8) 0 then S n else n in
  (Nat.div n 8 + (if Nat.eqb (Nat.modulo n 8) 0 then 0 else 1))%nat.

(** IntegerEncoder.encodeValue: zero is the single octet 00. *)
Definition enc_int (z : Z) : bytes :=
  if (z =? 0)%Z then [0]
  else let n := int_octets z in
       be_bytes n (Z.to_N (z mod 256 ^ Z.of_nat n)).
(** IntegerDecoder.valueDecoder: empty contents give 0. *)
Definition dec_int (s : bytes) : Z :=
  match s with
  | [] => 0
  | b :: _ => let u := Z.of_N (undigits 256 s) in
              if (b <? 128)%N then u else u - 256 ^ Z.of_nat (length s)
  end%Z.

Lemma size_nat_lt : forall n, n < 2 ^ N.of_nat (N.size_nat n).
Proof.
  intro n. destruct n as [|p]; [cbn; lia|].
  cbn [N.size_nat]. induction p as [p IH|p IH|]; cbn [Pos.size_nat]; rewrite ?Nat2N.inj_succ, ?N.pow_succ_r'; [| |cbn; lia].
  - change (N.pos p~1) with (2 * N.pos p + 1). lia.
  - change (N.pos p~0) with (2 * N.pos p). lia.
Qed.

Lemma int_octets_bound : forall z, (- 2 ^ (8 * Z.of_nat (int_octets z) - 1) <= z < 2 ^ (8 * Z.of_nat (int_octets z) - 1))%Z
  /\ (0 < int_octets z)%nat.
Proof.
  intro z. unfold int_octets. set (n := N.size_nat (Z.abs_N z)).
  assert (B : (Z.abs z < 2 ^ Z.of_nat n)%Z).
  { pose proof (size_nat_lt (Z.abs_N z)) as H. fold n in H.
    apply N2Z.inj_lt in H. rewrite N2Z.inj_pow, N2Z.inj_abs_N, nat_N_Z in H. exact H. }
  set (m := if Nat.eqb (Nat.modulo n 8) 0 then S n else n).
  assert (M : (n < 8 * (Nat.div m 8 + (if Nat.eqb (Nat.modulo m 8) 0 then 0 else 1)))%nat).
  { unfold m. pose proof (Nat.div_mod n 8 ltac:(lia)) as D. pose proof (Nat.mod_upper_bound n 8 ltac:(lia)) as U.
    destruct (Nat.eqb_spec (Nat.modulo n 8) 0) as [E|E].
    - pose proof (Nat.div_mod (S n) 8 ltac:(lia)) as D'. pose proof (Nat.mod_upper_bound (S n) 8 ltac:(lia)) as U'.
      destruct (Nat.eqb_spec (Nat.modulo (S n) 8) 0); lia.
    - destruct (Nat.eqb_spec (Nat.modulo n 8) 0); lia. }
  set (k := (Nat.div m 8 + (if Nat.eqb (Nat.modulo m 8) 0 then 0 else 1))%nat) in *.
  assert (P : (2 ^ Z.of_nat n <= 2 ^ (8 * Z.of_nat k - 1))%Z) by (apply Z.pow_le_mono_r; lia).
  split; lia.
Qed.

Lemma undigits_bound : forall l, forallb is_byte l = true -> undigits 256 l < 256 ^ N.of_nat (length l).
Proof.
  intro l. induction l as [|x l IH] using rev_ind; intro H; [cbn; lia|].
  rewrite forallb_app in H. apply andb_true_iff in H. destruct H as [H1 H2]. cbn in H2. rewrite andb_true_r in H2.
  apply N.ltb_lt in H2. rewrite undigits_snoc, app_length. specialize (IH H1). cbn [length].
  rewrite Nat.add_1_r, Nat2N.inj_succ, N.pow_succ_r'. nia.
Qed.
Lemma undigits_cons : forall b l, undigits 256 (b :: l) = b * 256 ^ N.of_nat (length l) + undigits 256 l.
Proof.
  intros b l. induction l as [|x l IH] using rev_ind; [cbn; lia|].
  change (b :: l ++ [x]) with ((b :: l) ++ [x]). rewrite !undigits_snoc, IH, app_length. cbn [length].
  rewrite Nat.add_1_r, Nat2N.inj_succ, N.pow_succ_r'. lia.
Qed.

Lemma dec_enc_int : forall z, dec_int (enc_int z) = z.
Proof.
  intro z. unfold enc_int. destruct (Z.eqb_spec z 0) as [->|NZ]; [reflexivity|].
  destruct (int_octets_bound z) as [B P]. set (k := int_octets z) in *. clearbody k.
  assert (POW : (256 ^ Z.of_nat k = 2 * 2 ^ (8 * Z.of_nat k - 1))%Z).
  { change 256%Z with (2 ^ 8)%Z. rewrite <- Z.pow_mul_r by lia. rewrite <- Z.pow_succ_r by lia. f_equal. lia. }
  assert (PP : (0 < 256 ^ Z.of_nat k)%Z) by (apply Z.pow_pos_nonneg; lia).
  assert (M : (0 <= z mod 256 ^ Z.of_nat k < 256 ^ Z.of_nat k)%Z) by (apply Z.mod_pos_bound, PP).
  set (u := Z.to_N (z mod 256 ^ Z.of_nat k)).
  assert (U : Z.of_N u = (z mod 256 ^ Z.of_nat k)%Z) by (unfold u; rewrite Z2N.id; lia).
  assert (UB : u < 256 ^ N.of_nat k).
  { apply N2Z.inj_lt. rewrite U, N2Z.inj_pow, nat_N_Z. lia. }
  pose proof (be_bytes_value k u UB) as V. pose proof (be_bytes_length k u) as L. pose proof (be_bytes_bytes k u) as BB.
  destruct (be_bytes k u) as [|b l] eqn:E; [cbn in L; lia|].
  unfold dec_int. rewrite L, V, U.
  assert (ZM : (z mod 256 ^ Z.of_nat k = if z <? 0 then z + 256 ^ Z.of_nat k else z)%Z).
  { destruct (Z.ltb_spec z 0).
    - rewrite <- (Z_mod_plus_full z 1). rewrite Z.mul_1_l. apply Z.mod_small. lia.
    - apply Z.mod_small. lia. }
  (* the top bit decides the sign *)
  rewrite undigits_cons in V. cbn [length] in L. assert (Lk : k = S (length l)) by lia.
  cbn [forallb] in BB. apply andb_true_iff in BB. destruct BB as [B1 B2].
  pose proof (undigits_bound l B2) as UL. set (w := undigits 256 l) in *.
  assert (HALF : (2 ^ (8 * Z.of_nat k - 1) = 128 * 256 ^ Z.of_nat (length l))%Z).
  { change 256%Z with (2 ^ 8)%Z. change 128%Z with (2 ^ 7)%Z. rewrite <- Z.pow_mul_r by lia.
    rewrite <- Z.pow_add_r by lia. f_equal. lia. }
  apply N2Z.inj_lt in UL. rewrite N2Z.inj_pow, nat_N_Z in UL. change (Z.of_N 256) with 256%Z in UL.
  assert (ZV : (Z.of_N u = Z.of_N b * 256 ^ Z.of_nat (length l) + Z.of_N w)%Z).
  { rewrite <- V, N2Z.inj_add, N2Z.inj_mul, N2Z.inj_pow, nat_N_Z. reflexivity. }
  assert (0 <= Z.of_N w)%Z by lia. set (q := (256 ^ Z.of_nat (length l))%Z) in *.
  assert (0 < q)%Z by (apply Z.pow_pos_nonneg; lia).
  rewrite ZM in *.
  destruct (N.ltb_spec b 128); destruct (Z.ltb_spec z 0); try lia; exfalso; nia.
Qed.

Lemma enc_int_bytes : forall z, forallb is_byte (enc_int z) = true.
Proof. intro z. unfold enc_int. destruct (z =? 0)%Z; [reflexivity|]. apply be_bytes_bytes. Qed.

(** ** OBJECT IDENTIFIER contents *)

(** ObjectIdentifierEncoder.encodeValue *)
Definition enc_oid (arcs : list N) : option bytes :=
  match arcs with
  | a :: b :: l =>
      if b <=? 39 then
        if a <=? 2 then Some (flat_map enc_num7 (b + 40 * a :: l)) else None
      else if a =? 2 then Some (flat_map enc_num7 (b + 80 :: l)) else None
  | _ => None
  end.

(** The subidentifier loop of ObjectIdentifierDecoder.valueDecoder. *)
Fixpoint dec_arcs (fuel : nat) (s : bytes) : option (list N) :=
  match s, fuel with
  | [], _ => Some []
  | _, O => None
  | b :: s', S f =>
      if b =? 128 then None
      else match dec_num7 0 s with
           | Some (n, r) => match dec_arcs f r with Some l => Some (n :: l) | None => None end
           | None => None
           end
  end.
Definition dec_oid (s : bytes) : option (list N) :=
  match s with
  | [] => None
  | _ => match dec_arcs (length s) s with
         | Some (x :: l) => if x <=? 39 then Some (0 :: x :: l)
                            else if x <=? 79 then Some (1 :: x - 40 :: l)
                            else Some (2 :: x - 80 :: l)
         | _ => None
         end
  end.

(** X.660 *)
Definition oid_ok (arcs : list N) : bool :=
  match arcs with
  | a :: b :: _ => (a <=? 2) && ((a =? 2) || (b <? 40))
  | _ => false
  end.

Lemma digits_head : forall b n, 2 <= b -> forall d l, digits b n = d :: l -> d <> 0.
Proof.
  intros b n Hb. unfold digits.
  assert (G : forall f n, (N.size_nat n <= f)%nat -> forall d l, digits_f f b n [] = d :: l -> d <> 0).
  { clear n. induction f as [|f IH]; intros n Hf d l H; cbn [digits_f] in H; [discriminate|].
    destruct (N.eqb_spec n 0) as [E|E]; [discriminate|].
    rewrite digits_f_acc in H. destruct (digits_f f b (n / b) []) as [|d' l'] eqn:Q.
    - cbn in H. inversion H; subst.
      pose proof (digits_f_value f b (n / b) Hb) as V. pose proof (size_div b n Hb E) as SD. rewrite Q in V. cbn in V.
      assert (Z0 : n / b = 0) by (symmetry; apply V; lia).
      apply N.div_small_iff in Z0; [|lia]. rewrite N.mod_small by exact Z0. exact E.
    - cbn in H. inversion H; subst. eapply (IH (n / b)); [|exact Q]. pose proof (size_div b n Hb E). lia. }
  intros d l. apply (G _ _ (le_n _)).
Qed.

Lemma enc_num7_head : forall n, exists b l, enc_num7 n = b :: l /\ b <> 128.
Proof.
  intro n. unfold enc_num7. destruct (N.eqb_spec n 0); [exists 0, []; split; [reflexivity|discriminate]|].
  pose proof (digits_nonempty 128 n ltac:(lia) n0) as NE.
  pose proof (digits_head 128 n ltac:(lia)) as H. pose proof (digits_bound 128 n ltac:(lia)) as BD.
  destruct (digits 128 n) as [|d [|d' l]]; [congruence| |].
  - exists d, []. split; [reflexivity|]. inversion BD; subst. lia.
  - exists (128 + d), (cont (d' :: l)). split; [reflexivity|]. specialize (H _ _ eq_refl). lia.
Qed.

Lemma dec_arcs_enc : forall l f, (length (flat_map enc_num7 l) <= f)%nat -> dec_arcs f (flat_map enc_num7 l) = Some l.
Proof.
  induction l as [|n l IH]; intros f Hf; [destruct f; reflexivity|].
  cbn [flat_map] in *. destruct (enc_num7_head n) as (b & t & E & NB). 
  assert (K : exists s', enc_num7 n ++ flat_map enc_num7 l = b :: s') by (rewrite E; eexists; reflexivity).
  destruct K as [s' K]. rewrite app_length in Hf. rewrite E in Hf. cbn [length] in Hf.
  destruct f as [|f]; [lia|].
  assert (D : dec_num7 0 (enc_num7 n ++ flat_map enc_num7 l) = Some (n, flat_map enc_num7 l)) by apply dec_enc_num7.
  rewrite K in *. cbn [dec_arcs]. destruct (N.eqb_spec b 128); [contradiction|]. rewrite D, IH by lia. reflexivity.
Qed.

Lemma enc_oid_some : forall l, oid_ok l = true -> exists s, enc_oid l = Some s.
Proof.
  intros [|a [|b l]] H; try discriminate. cbn in H. apply andb_true_iff in H. destruct H as [A B].
  apply N.leb_le in A. cbn [enc_oid]. destruct (N.leb_spec b 39).
  - rewrite (proj2 (N.leb_le a 2)) by lia. eauto.
  - apply orb_true_iff in B. destruct B as [B|B]; [rewrite B; eauto|apply N.ltb_lt in B; lia].
Qed.

Lemma dec_enc_oid : forall l s, enc_oid l = Some s -> dec_oid s = Some l.
Proof.
  intros [|a [|b l]] s H; try discriminate. cbn [enc_oid] in H.
  assert (K : forall x, dec_oid (flat_map enc_num7 (x :: l)) =
     if x <=? 39 then Some (0 :: x :: l) else if x <=? 79 then Some (1 :: x - 40 :: l) else Some (2 :: x - 80 :: l)).
  { intro x. unfold dec_oid. rewrite dec_arcs_enc by lia. cbn [flat_map].
    destruct (enc_num7_head x) as (c & t & E & _). rewrite E. reflexivity. }
  destruct (N.leb_spec b 39) as [L|L].
  - destruct (N.leb_spec a 2) as [A|A]; [|discriminate].
    assert (HS : s = flat_map enc_num7 (b + 40 * a :: l)) by (symmetry; congruence). rewrite HS, K. clear HS H.
    assert (C : a = 0 \/ a = 1 \/ a = 2) by lia. destruct C as [-> | [-> | ->]].
    + destruct (N.leb_spec (b + 40 * 0) 39); [|lia]. f_equal. f_equal. f_equal. lia.
    + destruct (N.leb_spec (b + 40 * 1) 39); [lia|]. destruct (N.leb_spec (b + 40 * 1) 79); [|lia].
      f_equal. f_equal. f_equal. lia.
    + destruct (N.leb_spec (b + 40 * 2) 39); [lia|]. destruct (N.leb_spec (b + 40 * 2) 79); [lia|].
      f_equal. f_equal. f_equal. lia.
  - destruct (N.eqb_spec a 2) as [->|]; [|discriminate].
    assert (HS : s = flat_map enc_num7 (b + 80 :: l)) by (symmetry; congruence). rewrite HS, K.
    destruct (N.leb_spec (b + 80) 39); [lia|]. destruct (N.leb_spec (b + 80) 79); [lia|].
    f_equal. f_equal. f_equal. lia.
Qed.

Lemma enc_oid_bytes : forall l s, enc_oid l = Some s -> forallb is_byte s = true.
Proof.
  assert (F : forall l, forallb is_byte (flat_map enc_num7 l) = true).
  { induction l; [reflexivity|]. cbn. rewrite forallb_app, enc_num7_bytes. exact IHl. }
  intros [|a [|b l]] s H; try discriminate. cbn [enc_oid] in H.
  destruct (b <=? 39); [destruct (a <=? 2)|destruct (a =? 2)]; try discriminate;
    (apply (f_equal (fun o => match o with Some x => x | None => [] end)) in H; cbv beta iota in H; rewrite <- H; apply F).
Qed.

(** ** BIT STRING contents *)

Fixpoint bits_val (l : list bool) (acc : N) : N :=
  match l with [] => acc | b :: l' => bits_val l' (2 * acc + bit b) end.
(** Pack bits into octets, most significant first, padding with zeros. *)
Fixpoint pack (fuel : nat) (l : list bool) : bytes :=
  match fuel with
  | O => []
  | S f => match l with
           | [] => []
           | _ => bits_val (firstn 8 (l ++ repeat false 7)) 0 :: pack f (skipn 8 l)
           end
  end.
Definition byte_bits (b : N) : list bool :=
  [N.testbit b 7; N.testbit b 6; N.testbit b 5; N.testbit b 4; N.testbit b 3; N.testbit b 2; N.testbit b 1; N.testbit b 0].
(** BitStringEncoder.encodeValue (maxChunkSize = 0 in DER) *)
Definition enc_bits (l : list bool) : bytes :=
  let o := pack (length l) l in
  8 * N.of_nat (length o) - N.of_nat (length l) :: o.
(** BitStringDecoder.valueDecoder, primitive form.  [None]: raises, or (when there are
    fewer bits than padding) yields a value of negative length. *)
Definition dec_bits (s : bytes) : option (list bool) :=
  match s with
  | [] => None
  | p :: o => if 7 <? p then None
              else let l := flat_map byte_bits o in
                   if N.of_nat (length l) <? p then None
                   else Some (firstn (length l - N.to_nat p) l)
  end.

Lemma byte_bits_val : forall l, length l = 8%nat -> byte_bits (bits_val l 0) = l.
Proof.
  intros l H. do 9 (destruct l as [|[] l]; try discriminate H); reflexivity.
Qed.
Lemma bits_val_byte : forall l, length l = 8%nat -> is_byte (bits_val l 0) = true.
Proof.
  intros l H. do 9 (destruct l as [|[] l]; try discriminate H); reflexivity.
Qed.

Lemma firstn_repeat : forall {A} (x : A) n k, (k <= n)%nat -> firstn k (repeat x n) = repeat x k.
Proof.
  induction n as [|n IH]; intros k H; destruct k as [|k]; cbn; try reflexivity; [lia|]. f_equal. apply IH. lia.
Qed.

Lemma pack_bits : forall f l, (length l <= f)%nat -> exists pad, (length pad < 8)%nat /\
  flat_map byte_bits (pack f l) = l ++ pad /\ (length l + length pad = 8 * length (pack f l))%nat
  /\ forallb is_byte (pack f l) = true.
Proof.
  induction f as [|f IH]; intros l Hl.
  - destruct l; [|cbn in Hl; lia]. exists []. cbn. repeat split; lia.
  - destruct l as [|b l]; [exists []; cbn; repeat split; lia|].
    cbn [pack]. set (x := b :: l) in *.
    assert (L8 : length (firstn 8 (x ++ repeat false 7)) = 8%nat).
    { rewrite firstn_length, app_length, repeat_length. unfold x. cbn [length]. lia. }
    assert (SK : (length (skipn 8 x) <= f)%nat) by (rewrite skipn_length; unfold x in *; cbn [length] in *; lia).
    destruct (Nat.le_gt_cases 8 (length x)) as [G|G].
    + destruct (IH _ SK) as (pad & P1 & P2 & P3 & P4). exists pad. split; [exact P1|].
      assert (F8 : firstn 8 (x ++ repeat false 7) = firstn 8 x).
      { rewrite firstn_app. replace (8 - length x)%nat with 0%nat by lia. cbn [firstn]. apply app_nil_r. }
      rewrite F8 in *. cbn [flat_map forallb length]. rewrite byte_bits_val, P2, P4, bits_val_byte by exact L8.
      rewrite app_assoc, firstn_skipn. split; [reflexivity|]. split; [|reflexivity].
      rewrite skipn_length in P3. lia.
    + assert (S0 : skipn 8 x = []) by (apply skipn_all2; lia). rewrite S0.
      replace (pack f []) with (@nil N) by (destruct f; reflexivity).
      exists (repeat false (8 - length x)). rewrite repeat_length. unfold x at 1. cbn [length]. fold x. split; [lia|].
      assert (F8 : firstn 8 (x ++ repeat false 7) = x ++ repeat false (8 - length x)).
      { rewrite firstn_app, firstn_all2 by lia. f_equal.
        assert (8 - length x <= 7)%nat by (unfold x; cbn [length]; lia).
        apply firstn_repeat. lia. }
      rewrite F8 in *. cbn [flat_map forallb]. rewrite byte_bits_val, bits_val_byte by exact L8. rewrite app_nil_r.
      split; [reflexivity|]. split; [cbn [length]; lia|reflexivity].
Qed.

Lemma dec_enc_bits : forall l, dec_bits (enc_bits l) = Some l.
Proof.
  intro l. unfold enc_bits, dec_bits. destruct (pack_bits (length l) l (le_n _)) as (pad & P1 & P2 & P3 & _).
  set (o := pack (length l) l) in *.
  replace (8 * N.of_nat (length o) - N.of_nat (length l)) with (N.of_nat (length pad)) by lia.
  destruct (N.ltb_spec 7 (N.of_nat (length pad))); [lia|]. rewrite P2, app_length.
  destruct (N.ltb_spec (N.of_nat (length l + length pad)) (N.of_nat (length pad))); [lia|].
  rewrite Nat2N.id. replace (length l + length pad - length pad)%nat with (length l) by lia.
  rewrite firstn_app, Nat.sub_diag, firstn_all. cbn. rewrite app_nil_r. reflexivity.
Qed.
Lemma enc_bits_bytes : forall l, forallb is_byte (enc_bits l) = true.
Proof.
  intro l. unfold enc_bits. destruct (pack_bits (length l) l (le_n _)) as (pad & P1 & P2 & P3 & P4).
  cbn [forallb]. rewrite P4. unfold is_byte. rewrite (proj2 (N.ltb_lt _ 256)) by lia. reflexivity.
Qed.
