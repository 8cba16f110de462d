(** Character encodings of pyasn1.type.char (attribute [encoding] of each string class)
    as implemented by Python's strict codecs: us-ascii, iso-8859-1, utf-8, utf-16-be and
    utf-32-be.  Text is a list of code points. *)
From Coq Require Import List ZArith NArith Bool Lia.
From Verif Require Import Asn1.Types Asn1.Bytes.
Import ListNotations.
Open Scope list_scope.
Open Scope N_scope.

Inductive charset := Ascii | Latin1 | Utf8 | Utf16 | Utf32.

(** pyasn1/type/char.py, class attribute [encoding]; useful.py: ObjectDescriptor is a
    GraphicString, GeneralizedTime and UTCTime are VisibleStrings. *)
Definition charset_of (k : strkind) : charset :=
  match k with
  | SUTF8 => Utf8
  | SNumeric | SPrintable | SIA5 | SVisible | SGenTime | SUTCTime => Ascii
  | STeletex | SVideotex | SGraphic | SGeneral | SObjDesc => Latin1
  | SUniversal => Utf32
  | SBMP => Utf16
  end.

(** Unicode scalar value: a code point that is not a surrogate. *)
Definition scalar (c : N) : bool := (c <? 55296) || ((57344 <=? c) && (c <? 1114112)).

Definition encodable (cs : charset) (c : N) : bool :=
  match cs with
  | Ascii => c <? 128
  | Latin1 => c <? 256
  | _ => scalar c
  end.

Definition enc_char (cs : charset) (c : N) : bytes :=
  match cs with
  | Ascii | Latin1 => [c]
  | Utf8 =>
      if c <? 128 then [c]
      else if c <? 2048 then [192 + c / 64; 128 + c mod 64]
      else if c <? 65536 then [224 + c / 4096; 128 + (c / 64) mod 64; 128 + c mod 64]
      else [240 + c / 262144; 128 + (c / 4096) mod 64; 128 + (c / 64) mod 64; 128 + c mod 64]
  | Utf16 =>
      if c <? 65536 then [c / 256; c mod 256]
      else let d := c - 65536 in
           let h := 55296 + d / 1024 in let l := 56320 + d mod 1024 in
           [h / 256; h mod 256; l / 256; l mod 256]
  | Utf32 => [c / 16777216; (c / 65536) mod 256; (c / 256) mod 256; c mod 256]
  end.
(** str.encode(encoding): [None] is UnicodeEncodeError. *)
Definition enc_text (cs : charset) (t : list N) : option bytes :=
  if forallb (encodable cs) t then Some (flat_map (enc_char cs) t) else None.

Definition tail_byte (b : N) : bool := (128 <=? b) && (b <? 192).
(** One character; [None] is UnicodeDecodeError. *)
Definition dec_char (cs : charset) (s : bytes) : option (N * bytes) :=
  match cs, s with
  | Ascii, b :: r => if b <? 128 then Some (b, r) else None
  | Latin1, b :: r => Some (b, r)
  | Utf8, b :: r =>
      if b <? 128 then Some (b, r)
      else match (if b <? 194 then 0 else if b <? 224 then 1 else if b <? 240 then 2 else if b <? 245 then 3 else 0), r with
           | 1, x :: r => if tail_byte x then Some ((b - 192) * 64 + (x - 128), r) else None
           | 2, x :: y :: r =>
               let c := (b - 224) * 4096 + (x - 128) * 64 + (y - 128) in
               if tail_byte x && tail_byte y && (2048 <=? c) && scalar c then Some (c, r) else None
           | 3, x :: y :: z :: r =>
               let c := (b - 240) * 262144 + (x - 128) * 4096 + (y - 128) * 64 + (z - 128) in
               if tail_byte x && tail_byte y && tail_byte z && (65536 <=? c) && (c <? 1114112) then Some (c, r) else None
           | _, _ => None
           end
  | Utf16, a :: b :: r =>
      let c := a * 256 + b in
      if (55296 <=? c) && (c <? 56320) then
        match r with
        | a' :: b' :: r' => let d := a' * 256 + b' in
                            if (56320 <=? d) && (d <? 57344) then Some (65536 + (c - 55296) * 1024 + (d - 56320), r') else None
        | _ => None
        end
      else if (56320 <=? c) && (c <? 57344) then None else Some (c, r)
  | Utf32, a :: b :: c :: d :: r =>
      let x := a * 16777216 + b * 65536 + c * 256 + d in
      if scalar x then Some (x, r) else None
  | _, _ => None
  end.
Fixpoint dec_text_f (fuel : nat) (cs : charset) (s : bytes) : option (list N) :=
  match s, fuel with
  | [], _ => Some []
  | _, O => None
  | _, S f => match dec_char cs s with
              | Some (c, r) => match dec_text_f f cs r with Some l => Some (c :: l) | None => None end
              | None => None
              end
  end.
Definition dec_text (cs : charset) (s : bytes) : option (list N) := dec_text_f (length s) cs s.

Lemma div_mod_lt : forall a b, b <> 0 -> a = b * (a / b) + a mod b /\ a mod b < b.
Proof. intros a b H. split; [exact (N.div_mod a b H)|exact (N.mod_lt a b H)]. Qed.

Ltac nltb := repeat match goal with
  | |- context [?a <? ?b] => let H := fresh in destruct (N.ltb_spec a b) as [H|H]; try (exfalso; lia)
  | |- context [?a <=? ?b] => let H := fresh in destruct (N.leb_spec a b) as [H|H]; try (exfalso; lia)
  end.

Lemma scalar_cases : forall c, scalar c = true -> c < 55296 \/ (57344 <= c /\ c < 1114112).
Proof.
  intros c H. unfold scalar in H. apply orb_true_iff in H. destruct H as [H|H]; [left; apply N.ltb_lt, H|].
  apply andb_true_iff in H. destruct H as [A B]. right. split; [apply N.leb_le, A|apply N.ltb_lt, B].
Qed.
Lemma scalar_intro : forall c, c < 55296 \/ (57344 <= c /\ c < 1114112) -> scalar c = true.
Proof.
  intros c [H|[A B]]; unfold scalar; apply orb_true_iff; [left; apply N.ltb_lt, H|right].
  apply andb_true_iff. split; [apply N.leb_le, A|apply N.ltb_lt, B].
Qed.

Lemma dec_enc_char : forall cs c r, encodable cs c = true -> dec_char cs (enc_char cs c ++ r) = Some (c, r).
Proof.
  intros cs c r H. destruct cs; cbn [encodable] in H.
  - cbn. rewrite H. reflexivity.
  - reflexivity.
  - (* utf-8 *)
    pose proof (scalar_cases c H) as SC.
    destruct (div_mod_lt c 64 ltac:(lia)) as [D1 M1].
    destruct (div_mod_lt (c / 64) 64 ltac:(lia)) as [D2 M2].
    assert (E2 : c / 64 / 64 = c / 4096) by (rewrite N.div_div by lia; reflexivity). rewrite E2 in D2.
    destruct (div_mod_lt (c / 4096) 64 ltac:(lia)) as [D3 M3].
    assert (E3 : c / 4096 / 64 = c / 262144) by (rewrite N.div_div by lia; reflexivity). rewrite E3 in D3.
    unfold enc_char.
    generalize dependent (c mod 64). generalize dependent ((c / 64) mod 64). generalize dependent ((c / 4096) mod 64).
    generalize dependent (c / 262144). generalize dependent (c / 4096). generalize dependent (c / 64).
    intros q1 q2 _ q3 _ m3 D3 M3 m2 D2 M2 m1 D1 M1.
    destruct (N.ltb_spec c 128) as [L|L]; [cbn [app dec_char]; nltb; reflexivity|].
    destruct (N.ltb_spec c 2048) as [L2|L2].
    { cbn [app dec_char]. nltb. unfold tail_byte. nltb. cbn [andb]. f_equal. f_equal. lia. }
    destruct (N.ltb_spec c 65536) as [L3|L3].
    { cbn [app dec_char]. nltb; unfold tail_byte; nltb; cbn [andb]; cbv zeta;
        replace ((224 + q2 - 224) * 4096 + (128 + m2 - 128) * 64 + (128 + m1 - 128)) with c in * by lia;
        try lia; rewrite H; reflexivity. }
    { cbn [app dec_char]. nltb; unfold tail_byte; nltb; cbn [andb]; cbv zeta;
        replace ((240 + q3 - 240) * 262144 + (128 + m3 - 128) * 4096 + (128 + m2 - 128) * 64 + (128 + m1 - 128)) with c in * by lia;
        try lia; reflexivity. }
  - (* utf-16 *)
    pose proof (scalar_cases c H) as SC. unfold enc_char.
    destruct (N.ltb_spec c 65536) as [L|L].
    + destruct (div_mod_lt c 256 ltac:(lia)) as [D1 M1].
      generalize dependent (c mod 256). generalize dependent (c / 256). intros q m D1 M1.
      cbn [app dec_char]. cbv zeta. replace (q * 256 + m) with c by lia. nltb; cbn [andb]; reflexivity.
    + cbv zeta. set (d := c - 65536). 
      destruct (div_mod_lt d 1024 ltac:(lia)) as [D0 M0].
      assert (HQ : d / 1024 < 1024) by (apply N.div_lt_upper_bound; unfold d; lia).
      assert (DC : c = 65536 + d) by (unfold d; lia). clearbody d.
      set (q := d / 1024) in *. set (m := d mod 1024) in *. clearbody q m.
      destruct (div_mod_lt (55296 + q) 256 ltac:(lia)) as [D1 M1]. destruct (div_mod_lt (56320 + m) 256 ltac:(lia)) as [D2 M2].
      cbn [app dec_char]. cbv zeta.
      replace ((55296 + q) / 256 * 256 + (55296 + q) mod 256) with (55296 + q) by lia.
      replace ((56320 + m) / 256 * 256 + (56320 + m) mod 256) with (56320 + m) by lia.
      clear D1 M1 D2 M2. nltb. cbn [andb]. f_equal. f_equal. lia.
  - (* utf-32 *)
    pose proof (scalar_cases c H) as SC. unfold enc_char.
    destruct (div_mod_lt c 256 ltac:(lia)) as [D1 M1].
    destruct (div_mod_lt (c / 256) 256 ltac:(lia)) as [D2 M2].
    assert (E2 : c / 256 / 256 = c / 65536) by (rewrite N.div_div by lia; reflexivity). rewrite E2 in D2.
    destruct (div_mod_lt (c / 65536) 256 ltac:(lia)) as [D3 M3].
    assert (E3 : c / 65536 / 256 = c / 16777216) by (rewrite N.div_div by lia; reflexivity). rewrite E3 in D3.
    cbn [app dec_char]. cbv zeta.
    replace (c / 16777216 * 16777216 + (c / 65536) mod 256 * 65536 + (c / 256) mod 256 * 256 + c mod 256) with c by lia.
    rewrite H. reflexivity.
Qed.

Lemma enc_char_nonempty : forall cs c, (1 <= length (enc_char cs c))%nat.
Proof. intros [] c; unfold enc_char; cbv zeta; repeat (destruct (_ <? _)); cbn [length]; apply le_n_S, Nat.le_0_l. Qed.

Lemma dec_enc_text_f : forall cs t f, forallb (encodable cs) t = true ->
  (length (flat_map (enc_char cs) t) <= f)%nat -> dec_text_f f cs (flat_map (enc_char cs) t) = Some t.
Proof.
  intro cs. induction t as [|c t IH]; intros f E L; [destruct f; reflexivity|].
  cbn [forallb] in E. apply andb_true_iff in E. destruct E as [E1 E2]. cbn [flat_map] in *.
  rewrite app_length in L. pose proof (enc_char_nonempty cs c) as NE. pose proof (dec_enc_char cs c (flat_map (enc_char cs) t) E1) as D.
  destruct (enc_char cs c) as [|x l] eqn:Q; [cbn in NE; lia|]. cbn [length] in L. destruct f as [|f]; [lia|].
  cbn [app] in *. unfold dec_text_f; fold dec_text_f. rewrite D, IH by (assumption || lia). reflexivity.
Qed.
Lemma dec_enc_text : forall cs t s, enc_text cs t = Some s -> dec_text cs s = Some t.
Proof.
  intros cs t s H. unfold enc_text in H. destruct (forallb (encodable cs) t) eqn:E; [|discriminate].
  assert (HS : s = flat_map (enc_char cs) t) by congruence. subst s. apply dec_enc_text_f; [exact E|apply le_n].
Qed.

Lemma enc_char_bytes : forall cs c, encodable cs c = true -> forallb is_byte (enc_char cs c) = true.
Proof.
  assert (B : forall x, x < 256 -> is_byte x = true) by (intros x L; apply N.ltb_lt, L).
  intros cs c H. destruct cs; cbn [encodable] in H.
  - apply N.ltb_lt in H. cbn [enc_char forallb]. rewrite B by lia. reflexivity.
  - apply N.ltb_lt in H. cbn [enc_char forallb]. rewrite B by lia. reflexivity.
  - pose proof (scalar_cases c H) as SC.
    assert (M : forall x, 128 + x mod 64 < 256) by (intro x; pose proof (N.mod_lt x 64 ltac:(lia)); lia).
    unfold enc_char. destruct (N.ltb_spec c 128); [cbn [forallb]; rewrite B by lia; reflexivity|].
    destruct (N.ltb_spec c 2048).
    { assert (c / 64 < 32) by (apply N.div_lt_upper_bound; lia). cbn [forallb]. rewrite !B by (apply M || lia). reflexivity. }
    destruct (N.ltb_spec c 65536).
    { assert (c / 4096 < 16) by (apply N.div_lt_upper_bound; lia). cbn [forallb]. rewrite !B by (apply M || lia). reflexivity. }
    { assert (c / 262144 < 5) by (apply N.div_lt_upper_bound; lia). cbn [forallb]. rewrite !B by (apply M || lia). reflexivity. }
  - pose proof (scalar_cases c H) as SC.
    assert (M : forall x, x mod 256 < 256) by (intro x; apply N.mod_lt; lia).
    unfold enc_char. destruct (N.ltb_spec c 65536).
    { assert (c / 256 < 256) by (apply N.div_lt_upper_bound; lia). cbn [forallb]. rewrite !B by (apply M || lia). reflexivity. }
    { assert ((c - 65536) / 1024 < 1024) by (apply N.div_lt_upper_bound; lia). pose proof (N.mod_lt (c - 65536) 1024 ltac:(lia)).
      cbv zeta. assert ((55296 + (c - 65536) / 1024) / 256 < 256) by (apply N.div_lt_upper_bound; lia).
      assert ((56320 + (c - 65536) mod 1024) / 256 < 256) by (apply N.div_lt_upper_bound; lia).
      cbn [forallb]. rewrite !B by (apply M || assumption). reflexivity. }
  - pose proof (scalar_cases c H) as SC.
    assert (M : forall x, x mod 256 < 256) by (intro x; apply N.mod_lt; lia).
    assert (c / 16777216 < 256) by (apply N.div_lt_upper_bound; lia).
    cbn [enc_char forallb]. rewrite !B by (apply M || assumption). reflexivity.
Qed.
Lemma enc_text_bytes : forall cs t s, enc_text cs t = Some s -> forallb is_byte s = true.
Proof.
  intros cs t s H. unfold enc_text in H. destruct (forallb (encodable cs) t) eqn:E; [|discriminate].
  assert (HS : s = flat_map (enc_char cs) t) by congruence. subst s. clear H. induction t as [|c t IH]; [reflexivity|].
  cbn in E. apply andb_true_iff in E. destruct E as [E1 E2]. cbn [flat_map]. rewrite forallb_app, enc_char_bytes, IH by assumption.
  reflexivity.
Qed.
