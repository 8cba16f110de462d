(** [base64.b64decode] as called by pyasn1_modules/pem.py:44 and :61, and the
    RFC 4648 encoder used to state round trips. *)
From Coq Require Import List NArith Bool Lia ZifyBool.
From Verif Require Import Pem.Text.
Import ListNotations.
Open Scope N_scope.

Definition bytes := list N.
Definition is_byte (b : N) : Prop := b < 256.

(** Exceptions [b64decode(x.encode())] can raise: binascii.Error (two texts)
    and UnicodeEncodeError from [str.encode]. *)
Inductive exn := IncorrectPadding | BadLength | UnicodeEncode.
Inductive res (A : Type) := Ok (a : A) | Err (e : exn).
Arguments Ok {A}. Arguments Err {A}.

(** The base64 alphabet: value of a character, [None] outside the alphabet
    (binascii's table_a2b_base64). *)
Definition b64val (c : char) : option N :=
  if (65 <=? c) && (c <=? 90) then Some (c - 65)
  else if (97 <=? c) && (c <=? 122) then Some (c - 71)
  else if (48 <=? c) && (c <=? 57) then Some (c + 4)
  else if c =? 43 then Some 62
  else if c =? 47 then Some 63
  else None.

Definition PAD : char := 61.

(** binascii.a2b_base64 (non-strict mode, CPython 3): one pass with the state
    (quad_pos, leftchar, pads).  Output bytes are produced in order.  *)
Fixpoint a2b (q left pads : N) (t : text) : res bytes :=
  match t with
  | [] => if q =? 0 then Ok [] else if q =? 1 then Err BadLength else Err IncorrectPadding
  | c :: t' =>
      if c =? PAD then
        if 2 <=? q
        then if 4 <=? q + (pads + 1) then Ok [] else a2b q left (pads + 1) t'
        else a2b q left pads t'
      else match b64val c with
           | None => a2b q left pads t'
           | Some v =>
               let emit b k := match k with Ok bs => Ok (b :: bs) | Err e => Err e end in
               if q =? 0 then a2b 1 v 0 t'
               else if q =? 1 then emit (N.lor (N.shiftl left 2) (N.shiftr v 4)) (a2b 2 (N.land v 15) 0 t')
               else if q =? 2 then emit (N.lor (N.shiftl left 4) (N.shiftr v 2)) (a2b 3 (N.land v 3) 0 t')
               else emit (N.lor (N.shiftl left 6) v) (a2b 0 0 0 t')
           end
  end.

(** [str.encode()] (UTF-8) fails exactly on surrogates; every non-ASCII
    character becomes bytes >= 128, none of which is in the base64 alphabet, so
    a2b can run on the characters themselves. *)
Definition is_surrogate (c : char) : bool := (55296 <=? c) && (c <=? 57343).

(** [base64.b64decode(x.encode())], pyasn1_modules/pem.py:44,61. *)
Definition b64decode (t : text) : res bytes :=
  if existsb is_surrogate t then Err UnicodeEncode else a2b 0 0 0 t.

(** ** RFC 4648 section 4 encoder (specification side) *)

(** Character of a 6-bit value (RFC 4648 table 1). *)
Definition b64char (v : N) : char :=
  if v <? 26 then v + 65 else if v <? 52 then v + 71 else if v <? 62 then v - 4
  else if v =? 62 then 43 else 47.

(** RFC 4648: 24-bit groups, most significant bits first, zero-padded at the end. *)
Fixpoint b64encode (d : bytes) : text :=
  match d with
  | a :: b :: c :: d' =>
      b64char (a / 4) :: b64char ((a mod 4) * 16 + b / 16) ::
      b64char ((b mod 16) * 4 + c / 64) :: b64char (c mod 64) :: b64encode d'
  | [a; b] =>
      [b64char (a / 4); b64char ((a mod 4) * 16 + b / 16); b64char ((b mod 16) * 4); PAD]
  | [a] => [b64char (a / 4); b64char ((a mod 4) * 16); PAD; PAD]
  | [] => []
  end.

(** A character the decoder pays attention to. *)
Definition relevant (c : char) : bool :=
  (c =? PAD) || match b64val c with Some _ => true | None => false end.

Definition is_alpha (c : char) : bool :=
  match b64val c with Some _ => true | None => false end.

(** ** Facts *)

(** Three-bytes-at-a-time induction. *)
Lemma bytes3_ind (P : list N -> Prop) :
  P [] -> (forall a, P [a]) -> (forall a b, P [a; b]) ->
  (forall a b c d, P d -> P (a :: b :: c :: d)) -> forall d, P d.
Proof.
  intros H0 H1 H2 H3.
  fix IH 1. intros [|a [|b [|c d]]]; [exact H0 | exact (H1 a) | exact (H2 a b) | exact (H3 a b c d (IH d))].
Qed.

Lemma b64val_range c v : b64val c = Some v -> v < 64.
Proof.
  unfold b64val.
  repeat match goal with |- context [if ?b then _ else _] => destruct b eqn:? end;
    intros H; inversion H; subst; lia.
Qed.

Lemma b64val_char v : v < 64 -> b64val (b64char v) = Some v.
Proof.
  intros H. unfold b64char.
  destruct (N.ltb_spec v 26); [|destruct (N.ltb_spec v 52); [|destruct (N.ltb_spec v 62); [|destruct (N.eqb_spec v 62)]]];
  unfold b64val;
  repeat match goal with |- context [if ?b then _ else _] => destruct b eqn:? end;
    try (f_equal; lia); lia.
Qed.

Lemma b64char_not_pad v : v < 64 -> (b64char v =? PAD) = false.
Proof.
  intros H. unfold b64char, PAD.
  destruct (N.ltb_spec v 26); [|destruct (N.ltb_spec v 52); [|destruct (N.ltb_spec v 62); [|destruct (N.eqb_spec v 62)]]]; lia.
Qed.

Lemma a2b_filter q l p t : a2b q l p (filter relevant t) = a2b q l p t.
Proof.
  revert q l p; induction t as [|c t IH]; intros; cbn [filter]; [reflexivity|].
  unfold relevant at 1. destruct (c =? PAD) eqn:Ep; cbn [orb].
  - cbn [a2b]. rewrite Ep.
    destruct (2 <=? q); [destruct (4 <=? q + (p + 1)); [reflexivity|]|]; apply IH.
  - destruct (b64val c) eqn:Ev; cbn [a2b]; rewrite Ep, Ev.
    + now rewrite !IH.
    + apply IH.
Qed.

Lemma lor_shift a b k : b < 2 ^ k -> N.lor (N.shiftl a k) b = a * 2 ^ k + b.
Proof.
  intros H. rewrite N.shiftl_mul_pow2.
  assert (E : N.land (a * 2 ^ k) b = 0).
  { apply N.bits_inj; intro i. rewrite N.land_spec, N.bits_0.
    destruct (N.lt_ge_cases i k).
    - now rewrite N.mul_pow2_bits_low.
    - rewrite <- (N.mod_small b (2 ^ k)) by assumption.
      rewrite N.mod_pow2_bits_high by assumption. apply andb_false_r. }
  rewrite <- N.lxor_lor by exact E. rewrite N.add_nocarry_lxor by exact E. reflexivity.
Qed.

Lemma land_ones v k : N.land v (2 ^ k - 1) = v mod 2 ^ k.
Proof. rewrite <- N.land_ones, N.ones_equiv, N.pred_sub. reflexivity. Qed.

Lemma join2 a x : a < 64 -> x < 64 -> N.lor (N.shiftl a 2) (N.shiftr x 4) = a * 4 + x / 16.
Proof.
  intros. rewrite N.shiftr_div_pow2. change (2 ^ 4) with 16.
  rewrite lor_shift; [reflexivity|]. change (2 ^ 2) with 4.
  apply N.div_lt_upper_bound; lia.
Qed.

Lemma join4 a x : x < 64 -> N.lor (N.shiftl a 4) (N.shiftr x 2) = a * 16 + x / 4.
Proof.
  intros. rewrite N.shiftr_div_pow2. change (2 ^ 2) with 4.
  rewrite lor_shift; [reflexivity|]. change (2 ^ 4) with 16.
  apply N.div_lt_upper_bound; lia.
Qed.

Lemma join6 a x : x < 64 -> N.lor (N.shiftl a 6) x = a * 64 + x.
Proof. intros. rewrite lor_shift; [reflexivity|]. exact H. Qed.

Lemma land15 v : N.land v 15 = v mod 16.
Proof. exact (land_ones v 4). Qed.
Lemma land3 v : N.land v 3 = v mod 4.
Proof. exact (land_ones v 2). Qed.

Ltac nprep := repeat match goal with
  | |- context [?a / ?k] =>
      let q := fresh "q" in let Hq := fresh in
      pose proof (N.div_mod a k ltac:(discriminate));
      pose proof (N.mod_lt a k ltac:(discriminate));
      generalize dependent (a / k)
  end.

Lemma group1 a b : a < 256 -> b < 256 ->
  (a / 4) * 4 + ((a mod 4) * 16 + b / 16) / 16 = a.
Proof.
  intros. pose proof (N.div_mod a 4 ltac:(discriminate)).
  assert (b / 16 < 16) by (apply N.div_lt_upper_bound; lia).
  rewrite (N.add_comm ((a mod 4) * 16)), N.div_add by discriminate.
  rewrite (N.div_small (b / 16)) by assumption. lia.
Qed.

Lemma group2 a b c : a < 256 -> b < 256 -> c < 256 ->
  (((a mod 4) * 16 + b / 16) mod 16) * 16 + ((b mod 16) * 4 + c / 64) / 4 = b.
Proof.
  intros. pose proof (N.div_mod b 16 ltac:(discriminate)).
  assert (b / 16 < 16) by (apply N.div_lt_upper_bound; lia).
  assert (c / 64 < 4) by (apply N.div_lt_upper_bound; lia).
  rewrite (N.add_comm ((a mod 4) * 16)), N.mod_add, (N.mod_small (b / 16)) by (assumption || discriminate).
  rewrite (N.add_comm ((b mod 16) * 4)), N.div_add by discriminate.
  rewrite (N.div_small (c / 64)) by assumption. lia.
Qed.

Lemma group3 b c : c < 256 ->
  (((b mod 16) * 4 + c / 64) mod 4) * 64 + c mod 64 = c.
Proof.
  intros. pose proof (N.div_mod c 64 ltac:(discriminate)).
  assert (c / 64 < 4) by (apply N.div_lt_upper_bound; lia).
  rewrite (N.add_comm ((b mod 16) * 4)), N.mod_add, (N.mod_small (c / 64)) by (assumption || discriminate).
  lia.
Qed.

Lemma bnd_hi a : a < 256 -> a / 4 < 64.
Proof. intros. apply N.div_lt_upper_bound; lia. Qed.
Lemma bnd_2 a b : b < 256 -> (a mod 4) * 16 + b / 16 < 64.
Proof.
  intros. pose proof (N.mod_lt a 4 ltac:(discriminate)).
  assert (b / 16 < 16) by (apply N.div_lt_upper_bound; lia). lia.
Qed.
Lemma bnd_3 b c : c < 256 -> (b mod 16) * 4 + c / 64 < 64.
Proof.
  intros. pose proof (N.mod_lt b 16 ltac:(discriminate)).
  assert (c / 64 < 4) by (apply N.div_lt_upper_bound; lia). lia.
Qed.
Lemma bnd_4 c : c mod 64 < 64.
Proof. apply N.mod_lt; discriminate. Qed.

(** One step of the decoder on an alphabet character. *)
Lemma a2b_char q l p v t : v < 64 ->
  a2b q l p (b64char v :: t) =
    (let emit b k := match k with Ok bs => Ok (b :: bs) | Err e => Err e end in
     if q =? 0 then a2b 1 v 0 t
     else if q =? 1 then emit (N.lor (N.shiftl l 2) (N.shiftr v 4)) (a2b 2 (N.land v 15) 0 t)
     else if q =? 2 then emit (N.lor (N.shiftl l 4) (N.shiftr v 2)) (a2b 3 (N.land v 3) 0 t)
     else emit (N.lor (N.shiftl l 6) v) (a2b 0 0 0 t)).
Proof. intros H. cbn [a2b]. rewrite b64char_not_pad, b64val_char by assumption. reflexivity. Qed.

Lemma a2b_group a b c t : a < 256 -> b < 256 -> c < 256 ->
  a2b 0 0 0 (b64char (a / 4) :: b64char ((a mod 4) * 16 + b / 16) ::
             b64char ((b mod 16) * 4 + c / 64) :: b64char (c mod 64) :: t)
  = match a2b 0 0 0 t with Ok bs => Ok (a :: b :: c :: bs) | Err e => Err e end.
Proof.
  intros Ha Hb Hc.
  rewrite a2b_char by now apply bnd_hi. cbn zeta.
  change (0 =? 0) with true. cbv iota.
  rewrite a2b_char by now apply bnd_2. cbn zeta.
  change (1 =? 0) with false; change (1 =? 1) with true. cbv iota.
  rewrite a2b_char by now apply bnd_3. cbn zeta.
  change (2 =? 0) with false; change (2 =? 1) with false; change (2 =? 2) with true. cbv iota.
  rewrite a2b_char by now apply bnd_4. cbn zeta.
  change (3 =? 0) with false; change (3 =? 1) with false; change (3 =? 2) with false. cbv iota.
  rewrite join2, join4, join6, land15, land3 by (now apply bnd_hi || now apply bnd_2 || now apply bnd_3 || apply bnd_4).
  rewrite group1, group2, group3 by assumption.
  now destruct (a2b 0 0 0 t).
Qed.

(** Decoding inverts encoding, followed by anything when there is no padding. *)
Lemma a2b_encode d : Forall is_byte d -> a2b 0 0 0 (b64encode d) = Ok d.
Proof.
  revert d; induction d as [|a|a b|a b c d IH] using bytes3_ind; intros H.
  - reflexivity.
  - inversion H as [|? ? Ha _]; subst. unfold is_byte in Ha. cbn [b64encode].
    rewrite a2b_char by now apply bnd_hi. cbn zeta. change (0 =? 0) with true. cbv iota.
    assert (Hm : a mod 4 < 4) by (apply N.mod_lt; discriminate).
    rewrite a2b_char by lia. cbn zeta. change (1 =? 0) with false; change (1 =? 1) with true. cbv iota.
    cbn [a2b]. change (PAD =? PAD) with true. cbv iota.
    change (2 <=? 2) with true. change (4 <=? 2 + (0 + 1)) with false. cbv iota.
    change (4 <=? 2 + (0 + 1 + 1)) with true. cbv iota.
    rewrite join2 by (apply bnd_hi || idtac; lia || now apply bnd_hi).
    rewrite N.div_mul by discriminate.
    rewrite N.mul_comm. rewrite <- N.div_mod by discriminate. reflexivity.
  - inversion H as [|? ? Ha H2]; subst. inversion H2 as [|? ? Hb _]; subst.
    unfold is_byte in *. cbn [b64encode].
    rewrite a2b_char by now apply bnd_hi. cbn zeta. change (0 =? 0) with true. cbv iota.
    rewrite a2b_char by now apply bnd_2. cbn zeta. change (1 =? 0) with false; change (1 =? 1) with true. cbv iota.
    assert (Hm : b mod 16 < 16) by (apply N.mod_lt; discriminate).
    rewrite a2b_char by lia. cbn zeta.
    change (2 =? 0) with false; change (2 =? 1) with false; change (2 =? 2) with true. cbv iota.
    cbn [a2b]. change (PAD =? PAD) with true. cbv iota.
    change (2 <=? 3) with true. change (4 <=? 3 + (0 + 1)) with true. cbv iota.
    rewrite join2 by (now apply bnd_hi || now apply bnd_2). rewrite group1 by assumption.
    rewrite join4 by lia. rewrite land15, N.div_mul by discriminate.
    rewrite N.add_comm with (n := (a mod 4) * 16), N.mod_add by discriminate.
    assert (b / 16 < 16) by (apply N.div_lt_upper_bound; lia).
    rewrite N.mod_small by assumption.
    rewrite N.mul_comm. rewrite <- N.div_mod by discriminate. reflexivity.
  - inversion H as [|? ? Ha H2]; subst. inversion H2 as [|? ? Hb H3]; subst.
    inversion H3 as [|? ? Hc H4]; subst.
    cbn [b64encode]. rewrite a2b_group by assumption. now rewrite IH.
Qed.

(** Characters of an encoding are relevant, not white space and below 128. *)
Lemma b64char_alpha v : v < 64 -> is_alpha (b64char v) = true.
Proof. intros H. unfold is_alpha. now rewrite b64val_char. Qed.

Definition b64_text (t : text) : bool := forallb relevant t.

Lemma relevant_small c : relevant c = true -> 43 <= c /\ c <= 122.
Proof.
  unfold relevant, b64val, PAD.
  destruct ((65 <=? c) && (c <=? 90)) eqn:E1; [lia|].
  destruct ((97 <=? c) && (c <=? 122)) eqn:E2; [lia|].
  destruct ((48 <=? c) && (c <=? 57)) eqn:E3; [lia|].
  destruct (c =? 43) eqn:E4; [lia|]. destruct (c =? 47) eqn:E5; lia.
Qed.

Lemma alpha_relevant c : is_alpha c = true -> relevant c = true.
Proof. unfold is_alpha, relevant. intros ->. apply orb_true_r. Qed.

Lemma b64encode_relevant d : Forall is_byte d -> b64_text (b64encode d) = true.
Proof.
  unfold b64_text.
  revert d; induction d as [|a|a b|a b c d IH] using bytes3_ind; intros H; [reflexivity|..];
    repeat match goal with H : Forall _ (_ :: _) |- _ => inversion H; clear H; subst end;
    unfold is_byte in *; cbn [b64encode forallb];
    repeat match goal with
    | |- context [relevant (b64char ?v)] => rewrite (alpha_relevant (b64char v)) by
        (apply b64char_alpha;
         first [ now apply bnd_hi | now apply bnd_2 | now apply bnd_3 | apply bnd_4
               | pose proof (N.mod_lt a 4 ltac:(discriminate)); lia
               | pose proof (N.mod_lt b 16 ltac:(discriminate)); lia ])
    end; cbn [andb]; auto.
Qed.

Lemma relevant_not_surrogate c : relevant c = true -> is_surrogate c = false.
Proof. intros H; apply relevant_small in H. unfold is_surrogate. lia. Qed.

Lemma relevant_not_space c : relevant c = true -> is_space c = false.
Proof.
  intros H; apply relevant_small in H. unfold is_space.
  repeat rewrite orb_false_iff. repeat split; lia.
Qed.

Lemma b64_text_no_surrogate t : b64_text t = true -> existsb is_surrogate t = false.
Proof.
  unfold b64_text. induction t as [|c t IH]; cbn; [reflexivity|].
  rewrite andb_true_iff. intros [Hc Ht]. rewrite relevant_not_surrogate by assumption. auto.
Qed.

Lemma b64_text_strip t : b64_text t = true -> strip t = t.
Proof.
  intros H. apply strip_id. unfold b64_text in H.
  rewrite forallb_forall in *. intros c Hc. now rewrite relevant_not_space by auto.
Qed.

Lemma b64_text_no_LF t : b64_text t = true -> ~ In LF t.
Proof.
  unfold b64_text. rewrite forallb_forall. intros H Hin. apply H in Hin. discriminate.
Qed.

(** Round trip through any interspersed irrelevant, encodable characters. *)
Lemma b64decode_encode_gen d t :
  Forall is_byte d -> existsb is_surrogate t = false ->
  filter relevant t = b64encode d -> b64decode t = Ok d.
Proof.
  intros Hd Hs Hf. unfold b64decode. rewrite Hs.
  rewrite <- a2b_filter, Hf. now apply a2b_encode.
Qed.

Lemma b64decode_encode d : Forall is_byte d -> b64decode (b64encode d) = Ok d.
Proof.
  intros Hd. unfold b64decode.
  rewrite b64_text_no_surrogate by now apply b64encode_relevant.
  now apply a2b_encode.
Qed.

Lemma alpha_case c : is_alpha c = true -> (c =? PAD) = false /\ exists v, b64val c = Some v /\ v < 64.
Proof.
  unfold is_alpha. destruct (b64val c) eqn:E; [|discriminate]. intros _. split.
  - destruct (N.eqb_spec c PAD); [subst; discriminate | reflexivity].
  - eauto using b64val_range.
Qed.

(** Whether pure-alphabet text is accepted depends on its length only. *)
Lemma a2b_alpha_ok t : forall q l p, q < 4 -> forallb is_alpha t = true ->
  ((q + N.of_nat (length t)) mod 4 = 0 <-> exists bs, a2b q l p t = Ok bs).
Proof.
  induction t as [|c t IH]; intros q l p Hq Ht.
  - cbn [length a2b]. rewrite N.add_0_r, N.mod_small by assumption.
    destruct (N.eqb_spec q 0); [|destruct (N.eqb_spec q 1)];
      (split; [intros | intros [bs E]]); eauto; try congruence; discriminate.
  - cbn [forallb] in Ht. apply andb_true_iff in Ht as [Hc Ht].
    apply alpha_case in Hc as (Hp & v & Hv & Hr).
    cbn [a2b length]. rewrite Hp, Hv.
    destruct (N.eqb_spec q 0) as [->|]; [|destruct (N.eqb_spec q 1) as [->|]; [|destruct (N.eqb_spec q 2) as [->|]]].
    + rewrite <- (IH 1 v 0) by (assumption || lia).
      replace (1 + N.of_nat (length t)) with (0 + N.of_nat (S (length t))) by lia. reflexivity.
    + replace (1 + N.of_nat (S (length t))) with (2 + N.of_nat (length t)) by lia.
      rewrite (IH 2 (N.land v 15) 0) by (assumption || lia).
      destruct (a2b 2 (N.land v 15) 0 t) eqn:E; cbn; split; intros [bs H]; eauto; discriminate.
    + replace (2 + N.of_nat (S (length t))) with (3 + N.of_nat (length t)) by lia.
      rewrite (IH 3 (N.land v 3) 0) by (assumption || lia).
      destruct (a2b 3 (N.land v 3) 0 t) eqn:E; cbn; split; intros [bs H]; eauto; discriminate.
    + assert (q = 3) by lia. subst.
      replace (3 + N.of_nat (S (length t))) with (0 + N.of_nat (length t) + 1 * 4) by lia.
      rewrite N.mod_add by discriminate.
      rewrite (IH 0 0 0) by (assumption || lia).
      destruct (a2b 0 0 0 t) eqn:E; cbn; split; intros [bs H]; eauto; discriminate.
Qed.

Lemma Ok_inj {A} (x y : A) : Ok x = Ok y -> x = y.
Proof. congruence. Qed.

(** Bytes produced by the decoder are bytes. *)
Lemma a2b_bytes t : forall q l p bs, q < 4 ->
  (q = 0 \/ q = 1 /\ l < 64 \/ q = 2 /\ l < 16 \/ q = 3 /\ l < 4) ->
  a2b q l p t = Ok bs -> Forall is_byte bs.
Proof.
  induction t as [|c t IH]; intros q l p bs Hq Hl; cbn [a2b].
  - destruct (q =? 0); [intros H; inversion H; constructor|]. destruct (q =? 1); discriminate.
  - destruct (c =? PAD).
    + destruct (2 <=? q); [destruct (4 <=? q + (p + 1))|]; try (now apply IH).
      intros H; inversion H; constructor.
    + destruct (b64val c) as [v|] eqn:Hv; [|now apply IH].
      apply b64val_range in Hv. cbn zeta.
      destruct (N.eqb_spec q 0); [apply IH; [lia | right; left; split; [reflexivity | assumption]]|].
      destruct (N.eqb_spec q 1); [|destruct (N.eqb_spec q 2)].
      * destruct (a2b 2 (N.land v 15) 0 t) eqn:E; [|discriminate]; intros H; apply Ok_inj in H; subst bs.
        constructor.
        -- unfold is_byte. rewrite join2 by lia.
           assert (v / 16 < 4) by (apply N.div_lt_upper_bound; lia). lia.
        -- eapply IH; [| |exact E]; [lia|]. right; right; left; split; [reflexivity|].
           rewrite land15. apply N.mod_lt; discriminate.
      * destruct (a2b 3 (N.land v 3) 0 t) eqn:E; [|discriminate]; intros H; apply Ok_inj in H; subst bs.
        constructor.
        -- unfold is_byte. rewrite join4 by lia.
           assert (v / 4 < 16) by (apply N.div_lt_upper_bound; lia). lia.
        -- eapply IH; [| |exact E]; [lia|]. right; right; right; split; [reflexivity|].
           rewrite land3. apply N.mod_lt; discriminate.
      * destruct (a2b 0 0 0 t) eqn:E; [|discriminate]; intros H; apply Ok_inj in H; subst bs.
        constructor.
        -- unfold is_byte. rewrite join6 by lia. lia.
        -- eapply IH; [| |exact E]; [lia | left; reflexivity].
Qed.

Lemma b64decode_bytes t bs : b64decode t = Ok bs -> Forall is_byte bs.
Proof.
  unfold b64decode. destruct (existsb is_surrogate t); [discriminate|].
  apply a2b_bytes; [lia | left; reflexivity].
Qed.

(** Length of the result on pure-alphabet text. *)
Lemma a2b_alpha_len t : forall q l p bs, q < 4 -> forallb is_alpha t = true ->
  a2b q l p t = Ok bs ->
  4 * N.of_nat (length bs) + (if q =? 0 then 0 else q - 1) * 4 = 3 * (q + N.of_nat (length t)) .
Proof.
  induction t as [|c t IH]; intros q l p bs Hq Ht; cbn [a2b].
  - destruct (N.eqb_spec q 0); [intros H; inversion H; subst; reflexivity|].
    destruct (q =? 1); discriminate.
  - cbn [forallb] in Ht. apply andb_true_iff in Ht as [Hc Ht].
    apply alpha_case in Hc as (Hp & v & Hv & Hr).
    rewrite Hp, Hv. cbn zeta. cbn [length].
    destruct (N.eqb_spec q 0) as [->|]; [|destruct (N.eqb_spec q 1) as [->|]; [|destruct (N.eqb_spec q 2) as [->|]]].
    + intros H. apply IH in H; [|lia|assumption]. change (1 =? 0) with false in H. cbv iota in H. lia.
    + destruct (a2b 2 (N.land v 15) 0 t) eqn:E; intros H; inversion H; subst.
      apply IH in E; [|lia|assumption]. change (2 =? 0) with false in E. cbv iota in E. cbn [length]. lia.
    + destruct (a2b 3 (N.land v 3) 0 t) eqn:E; intros H; inversion H; subst.
      apply IH in E; [|lia|assumption]. change (3 =? 0) with false in E. cbv iota in E. cbn [length]. lia.
    + destruct (a2b 0 0 0 t) eqn:E; intros H; inversion H; subst.
      apply IH in E; [|lia|assumption]. change (0 =? 0) with true in E. cbv iota in E. cbn [length]. lia.
Qed.
