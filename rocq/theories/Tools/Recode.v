(** What the dump tools do with one item: decode, drop what follows it, encode again and
    compare.  tools/x509dump.py:36-45 (and pkcs10dump, crldump, pkcs1dump, pkcs8dump,
    pkcs7dump:26-33). *)
From Coq Require Import List String ZArith NArith Bool Lia.
From Verif Require Import Py.Syntax Asn1.Types Py.Eval Asn1.EqbFacts Asn1.Bytes Asn1.Der Asn1.Wf Asn1.RoundTrip Asn1.RoundTrip2
  Asn1.Open Asn1.Total.
Import ListNotations.
Open Scope N_scope.
Open Scope list_scope.

Section codec.
Context {Cdc : codec}.

(** cert, rest = decode(substrate, asn1Spec=t); if rest: substrate = substrate[:-len(rest)];
    the value, and whether encode(cert) == substrate (a failing encode raises). *)
Definition recode (t : asn1) (s : bytes) : res (aval * bool) :=
  let! (v, rest) := decode t s in
  let s' := match rest with [] => s | _ => firstn (List.length s - List.length rest) s end in
  let! e := encode t v in
  Ok (v, list_eqb N.eqb e s').
(** tools/cmpdump.py:32-36 (and ocspreqdump, ocsprspdump, crmfdump): what follows the item is
    not dropped before the comparison. *)
Definition recode_all (t : asn1) (s : bytes) : res (aval * bool) :=
  let! (v, _) := decode t s in
  let! e := encode t v in
  Ok (v, list_eqb N.eqb e s).

Lemma octs_eqb_refl : forall s : bytes, list_eqb N.eqb s s = true.
Proof. induction s as [|b s IH]; [reflexivity|]. cbn. rewrite N.eqb_refl. exact IH. Qed.
Lemma octs_eqb_eq : forall a b : bytes, list_eqb N.eqb a b = true -> a = b.
Proof. intros a b H. apply (list_eqb_sound N.eqb) in H; [exact H|]. intros u v E. apply N.eqb_eq, E. Qed.

Lemma recode_encoding : forall t v bs rest, decode t (bs ++ rest) = Ok (v, rest) -> encode t v = Ok bs ->
  recode t (bs ++ rest) = Ok (v, true).
Proof.
  intros t v bs rest D E. unfold recode. rewrite D. cbn [rbind]. rewrite E. cbn [rbind].
  destruct rest as [|b rest]; [rewrite app_nil_r, octs_eqb_refl; reflexivity|].
  rewrite app_length. replace (List.length bs + List.length (b :: rest) - List.length (b :: rest))%nat with (List.length bs) by lia.
  rewrite firstn_app, firstn_all, Nat.sub_diag. change (firstn 0 (b :: rest)) with (@nil N). rewrite app_nil_r, octs_eqb_refl. reflexivity.
Qed.
Lemma recode_all_encoding : forall t v bs rest, decode t (bs ++ rest) = Ok (v, rest) -> encode t v = Ok bs ->
  recode_all t (bs ++ rest) = Ok (v, match rest with [] => true | _ => false end).
Proof.
  intros t v bs rest D E. unfold recode_all. rewrite D. cbn [rbind]. rewrite E. cbn [rbind].
  destruct rest as [|b rest]; [rewrite app_nil_r, octs_eqb_refl; reflexivity|].
  destruct (list_eqb N.eqb bs (bs ++ b :: rest)) eqn:Q; [|reflexivity].
  apply octs_eqb_eq in Q. apply (f_equal (@List.length N)) in Q. rewrite app_length in Q. cbn in Q. lia.
Qed.

(** ** Lengths with a superfluous octet *)

(** The item with one more length octet than needed. *)
Definition padded (t : tag) (k : bool) (c : bytes) : bytes :=
  let d := 0 :: digits 256 (N.of_nat (List.length c)) in
  enc_tag t k ++ (128 + N.of_nat (List.length d) :: d) ++ c.
Lemma undigits_zero : forall b l, undigits b (0 :: l) = undigits b l.
Proof. intros. unfold undigits. reflexivity. Qed.
Lemma dec_padded : forall t k c s rest, put_header t k c = Ok s -> dec_header (padded t k c ++ rest) = Some (rb k t, c, rest).
Proof.
  intros t k c s rest H. unfold put_header, enc_header, enc_len in H. unfold padded. cbv zeta.
  set (d := digits 256 (N.of_nat (List.length c))) in *.
  assert (B : N.of_nat (List.length (0 :: d)) < 128).
  { cbn [List.length]. destruct (N.ltb_spec (N.of_nat (List.length c)) 128) as [L|L].
    - assert (List.length d <= 1)%nat; [|lia]. subst d. unfold digits.
      destruct (N.of_nat (List.length c)) as [|p] eqn:Z; [cbn; lia|].
      pose proof (size_div 256 (N.pos p) ltac:(lia) ltac:(lia)) as SD. rewrite N.div_small in SD by lia. cbn [N.size_nat] in SD.
      destruct (N.size_nat (N.pos p)) as [|f]; [cbn; lia|]. cbn [digits_f]. rewrite N.div_small by lia.
      destruct (N.pos p =? 0); [cbn; lia|]. destruct f; cbn; lia.
    - destruct (N.ltb_spec 126 (N.of_nat (List.length d))); [discriminate|lia]. }
  unfold dec_header. rewrite <- !app_assoc, dec_enc_tag. rewrite (dec_len_long _ (0 :: d) (c ++ rest)); [|reflexivity|cbn [List.length]; lia|exact B].
  rewrite undigits_zero. subst d. rewrite digits_value by lia. rewrite take_app. reflexivity.
Qed.
Lemma padded_longer : forall t k c s, put_header t k c = Ok s -> (List.length s < List.length (padded t k c))%nat.
Proof.
  intros t k c s H. unfold put_header, enc_header, enc_len in H. unfold padded. cbv zeta.
  destruct (N.of_nat (List.length c) <? 128).
  - assert (s = enc_tag t k ++ [N.of_nat (List.length c)] ++ c) by congruence. subst s. rewrite !app_length. cbn [List.length]. lia.
  - destruct (126 <? _); [discriminate|]. match type of H with Ok ?x = Ok s => assert (s = x) by congruence end. subst s.
    rewrite !app_length. cbn [List.length]. lia.
Qed.

(** The decoder does not look at the header of a SEQUENCE or SET again. *)
Lemma decode_padded : forall isset m fs g c bs v, tags m = [g] -> put_header g true c = Ok bs ->
  decode (TSeq isset m fs) bs = Ok (v, []) -> decode (TSeq isset m fs) (padded g true c) = Ok (v, []).
Proof.
  intros isset m fs g c bs v TG P D. unfold decode, decode_with, dec_one in *. cbn [comp_of c_map c_val] in *.
  change (tag_map (TSeq isset m fs)) with (mkT [tags m] false true) in *. cbn [tok] in *.
  unfold item in *.
  assert (HD : forall s, dec_header s = Some (rb true g, c, []) ->
    exists tlv, descend (List.length s) (accepts (mkT [tags m] false true)) [] s = Ok ([rb true g], tlv, c, [])).
  { intros s HH. destruct s as [|b s]; [discriminate|]. cbn [List.length descend]. rewrite HH.
    assert (A : accepts (mkT [tags m] false true) [rb true g] = true).
    { unfold accepts. cbn [keys dflt]. rewrite TG. cbn. destruct g as [gc gk gn]. unfold tag_eqb. cbn.
      rewrite N.eqb_refl. destruct gc; reflexivity. }
    rewrite A. eauto. }
  pose proof (dec_put_header g true c bs [] P) as H1. rewrite app_nil_r in H1.
  pose proof (dec_padded g true c bs [] P) as H2. rewrite app_nil_r in H2.
  destruct (HD _ H1) as (tlv & E1). destruct (HD _ H2) as (tlv2 & E2). rewrite E1 in D. rewrite E2.
  cbn [rbind] in *. rewrite dec_seq_val in *. exact D.
Qed.

(** So every encoding of a SEQUENCE or SET has a variant that decodes to the same value, and
    then fails the comparison. *)
Lemma recode_padded : forall isset m fs g v bs, tags m = [g] -> encode (TSeq isset m fs) v = Ok bs ->
  decode (TSeq isset m fs) bs = Ok (v, []) ->
  exists bs', recode (TSeq isset m fs) bs' = Ok (v, false) /\ recode_all (TSeq isset m fs) bs' = Ok (v, false).
Proof.
  intros isset m fs g v bs TG E D.
  assert (P : exists c, put_header g true c = Ok bs).
  { assert (HV : exists vs, v = VSeq vs).
    { destruct (decode_complete None isset m fs bs v [] D) as (vs & -> & _). eauto. }
    destruct HV as (vs & ->). unfold encode in E. rewrite enc_seq_eq in E.
    destruct (ctruthy _ && _); [discriminate|]. apply rbind_ok in E. destruct E as (cs & _ & E). rewrite TG in E.
    unfold finish in E. destruct (List.concat _); cbn [andb wrap] in E;
      apply rbind_ok in E; destruct E as (c' & P & Q); inversion Q; subst; eauto. }
  destruct P as (c & P). exists (padded g true c). pose proof (decode_padded isset m fs g c bs v TG P D) as D2.
  assert (NE : list_eqb N.eqb bs (padded g true c) = false).
  { destruct (list_eqb N.eqb bs (padded g true c)) eqn:Q; [|reflexivity]. apply octs_eqb_eq in Q. pose proof (padded_longer _ _ _ _ P) as L.
    rewrite <- Q in L. lia. }
  unfold recode, recode_all. rewrite D2. cbn [rbind]. rewrite E. cbn [rbind]. rewrite NE. auto.
Qed.

End codec.
