(** A ContentInfo in a ContentInfo in a ContentInfo ... (C64). *)
From Coq Require Import List String ZArith NArith Bool Lia.
From Verif Require Import Py.Syntax Asn1.Types Py.Eval Asn1.EqbFacts Gen.All
  Asn1.Bytes Asn1.Der Asn1.Wf Asn1.RoundTrip Asn1.RoundTrip2 Asn1.Open Asn1.Total Asn1.Inside Asn1.OpenDepth Asn1.Nesting
  Load.Import Load.Computed Load.Registry Load.Session Load.Schemas Load.Checked Load.CheckedFacts.
Import ListNotations.
Open Scope string_scope.
Open Scope list_scope.
Open Scope N_scope.

Opaque all_modules T.

Section codec.
Context {Cdc : codec}.

(** ** Lengths of headers *)

Lemma digits_short : forall k n, n < 256 ^ k -> N.of_nat (List.length (digits 256 n)) <= k.
Proof.
  intros k n L. destruct (digits 256 n) as [|d l] eqn:E; [cbn; lia|].
  pose proof (digits_head 256 n ltac:(lia) d l E) as NZ. pose proof (digits_value 256 n ltac:(lia)) as V. rewrite E, undigits_cons in V.
  assert (G : 256 ^ N.of_nat (List.length l) <= n) by nia.
  assert (N.of_nat (List.length l) < k); [|cbn [List.length]; lia].
  apply (N.pow_lt_mono_r_iff 256); [lia|]. lia.
Qed.
Lemma len_short : forall j n, j <= 126 -> n < 256 ^ j -> exists l, enc_len n = Some l /\ N.of_nat (List.length l) <= j + 1.
Proof.
  intros j n J L. unfold enc_len. destruct (N.ltb_spec n 128); [eexists; split; [reflexivity|cbn; lia]|].
  pose proof (digits_short j n L) as S1. cbv zeta. destruct (N.ltb_spec 126 (N.of_nat (List.length (digits 256 n)))); [lia|].
  eexists. split; [reflexivity|]. cbn [List.length]. lia.
Qed.
Lemma header_short : forall j t k c, j <= 126 -> tnum t < 31 -> N.of_nat (List.length c) < 256 ^ j ->
  exists s, put_header t k c = Ok s /\ N.of_nat (List.length s) <= N.of_nat (List.length c) + (j + 2) /\
    (forallb is_byte c = true -> forallb is_byte s = true).
Proof.
  intros j t k c J T L. destruct (len_short j _ J L) as (l & E & B). unfold put_header, enc_header. rewrite E. eexists. split; [reflexivity|]. split.
  - unfold enc_tag. cbv zeta. rewrite (proj2 (N.ltb_lt _ _) T). rewrite !app_length. cbn [List.length]. lia.
  - intro C. rewrite !forallb_app, enc_tag_bytes, C. rewrite (proj1 (enc_len_bytes _ _ E)). reflexivity.
Qed.

(** ** The type and the values *)

Definition no_con : cons := CInter [].
(** rfc5652.ContentInfo (rfc5652.py:604-612). *)
Definition content_info : asn1 :=
  TSeq false (mkM [mkTag Universal true 16] no_con [] no_con)
    [Fld "contentType" Req (TPrim KOid (mkM [mkTag Universal false 6] no_con [] no_con)) None None;
     Fld "content" Req (TPrim KAny (mkM [mkTag Context true 0] no_con [] no_con)) None
       (Some ("contentType", ("rfc5652", "cmsContentTypesMap")))].
Definition octets_type : asn1 := TPrim KOcts (mkM [mkTag Universal false 4] no_con [] no_con).
Definition id_data : list N := [1; 2; 840; 113549; 1; 7; 1].
Definition id_ct_contentInfo : list N := [1; 2; 840; 113549; 1; 9; 16; 1; 6].

Fixpoint nest (k : nat) : aval :=
  match k with
  | O => VSeq [Some (VOid id_data); Some (VTyped octets_type (Some (VOcts [])))]
  | S k' => VSeq [Some (VOid id_ct_contentInfo); Some (VTyped content_info (Some (nest k')))]
  end.
Lemma nest_levels : forall k, levels (nest k) = S k.
Proof. induction k as [|k IH]; [reflexivity|]. cbn [nest levels]. rewrite IH. lia. Qed.

Section nest.
Variable R : Open.registry.
Hypothesis RC : R ("rfc5652", "cmsContentTypesMap") (KeyOid id_ct_contentInfo) = Some content_info.
Hypothesis RD : R ("rfc5652", "cmsContentTypesMap") (KeyOid id_data) = Some octets_type.

Lemma opened_S : forall n d k, opened_of R (S n) d k =
  match R d k with
  | None => None
  | Some t => Some (fun x => match x with VTyped t' (Some y) => asn1_eqb t' t && wf t && conf (Some (opened_of R n)) t y | _ => false end)
  end.
Proof. reflexivity. Qed.
(** With lengths of at most [j] octets. *)
Variable j : N.
Hypothesis J : j <= 126.
Lemma nest_ok : forall k, (17 + 2 * j) * (N.of_nat k + 1) < 256 ^ j ->
  conf (Some (opened_of R (S k))) content_info (nest k) = true /\
  exists b, encode content_info (nest k) = Ok b /\ N.of_nat (List.length b) <= (17 + 2 * j) * (N.of_nat k + 1) /\ forallb is_byte b = true.
Proof.
  induction k as [|k IH]; intro L.
  - split.
    + cbn. rewrite RD. reflexivity.
    + eexists. split; [vm_compute; reflexivity|]. split; [cbn [List.length]; lia|reflexivity].
  - destruct IH as (C & b & E & LB & IB); [lia|].
    destruct (header_short j (mkTag Context true 0) false b) as (s1 & E1 & L1 & B1); [exact J|cbn; lia|lia|].
    set (oid := [6; 11; 42; 134; 72; 134; 247; 13; 1; 9; 16; 1; 6]).
    destruct (header_short j (mkTag Universal true 16) true (oid ++ s1 ++ [])) as (s2 & E2 & L2 & B2);
      [exact J|cbn; lia|rewrite !app_length; cbn [List.length oid]; lia|].
    assert (EX : enc (VTyped content_info (Some (nest k))) true false (TPrim KAny (mkM [mkTag Context true 0] no_con [] no_con)) = Ok s1).
    { cbn [enc]. unfold encode in E. rewrite E. cbn -[put_header]. destruct b; rewrite E1; reflexivity. }
    assert (EY : enc (VOcts b) true false (TPrim KAny (mkM [mkTag Context true 0] no_con [] no_con)) = Ok s1).
    { cbn -[put_header]. destruct b; rewrite E1; reflexivity. }
    set (oid_f := Fld "contentType" Req (TPrim KOid (mkM [mkTag Universal false 6] no_con [] no_con)) None None).
    set (any_f := Fld "content" Req (TPrim KAny (mkM [mkTag Context true 0] no_con [] no_con)) None
                    (Some ("contentType", ("rfc5652", "cmsContentTypesMap")))).
    change (nest (S k)) with (VSeq [Some (VOid id_ct_contentInfo); Some (VTyped content_info (Some (nest k)))]).
    split.
    + change content_info with (TSeq false (mkM [mkTag Universal true 16] no_con [] no_con) [oid_f; any_f]) at 1.
      rewrite conf_seq. cbn [conf_slots]. change (negb (ctruthy _) || _) with true. rewrite andb_true_r. cbn [andb].
      apply andb_true_iff. split; [vm_compute; reflexivity|].
      assert (EF : entry_for (Some (opened_of R (S (S k)))) [oid_f; any_f] [Some (VOid id_ct_contentInfo); Some (VTyped content_info (Some (nest k)))] any_f
                 = Some (Some (fun x => match x with VTyped t' (Some y) => asn1_eqb t' content_info && wf content_info && conf (Some (opened_of R (S k))) content_info y | _ => false end))).
      { transitivity (Some (opened_of R (S (S k)) ("rfc5652", "cmsContentTypesMap") (KeyOid id_ct_contentInfo))); [reflexivity|].
        rewrite opened_S, RC. reflexivity. }
      unfold conf_slot. rewrite EF. clear EF. cbn [any_f fpres fdef fopen ftype is_opt negb orb is_some all_opened plain plain1]. unfold encode in E. rewrite E.
      rewrite EX, EY. cbn [res_eqb]. rewrite C.
      change (wf content_info) with true. change (asn1_eqb content_info content_info) with true. cbn [andb].
      cbn [conf]. unfold conf_prim. cbn [csat spec no_con andb]. rewrite IB, (list_eqb_refl N.eqb N.eqb_refl). reflexivity.
    + exists s2. split; [|split].
      * change (enc (VSeq [Some (VOid id_ct_contentInfo); Some (VTyped content_info (Some (nest k)))]) false false
                  (TSeq false (mkM [mkTag Universal true 16] no_con [] no_con) [oid_f; any_f]) = Ok s2).
        rewrite enc_seq_eq. change (ctruthy _ && _) with false. cbv iota.
        assert (EF : enc_fields [Some (VOid id_ct_contentInfo); Some (VTyped content_info (Some (nest k)))] [oid_f; any_f]
                   = Ok [(sort_key (TPrim KOid (mkM [mkTag Universal false 6] no_con [] no_con)) (Some (VOid id_ct_contentInfo)), oid);
                         (sort_key (TPrim KAny (mkM [mkTag Context true 0] no_con [] no_con)) (Some (VTyped content_info (Some (nest k)))), s1)]).
        { unfold enc_fields, oid_f, any_f. cbn [is_some is_opt]. rewrite EX. cbn [rbind].
          replace (enc (VOid id_ct_contentInfo) false false (TPrim KOid (mkM [mkTag Universal false 6] no_con [] no_con))) with (Ok oid) by (vm_compute; reflexivity).
          reflexivity. }
        rewrite EF. cbn [rbind map snd List.concat]. unfold finish. cbn [tags]. change (oid ++ s1 ++ []) with (6 :: tl oid ++ s1 ++ []) at 1.
        cbv iota. change (6 :: tl oid ++ s1 ++ []) with (oid ++ s1 ++ []). cbn [wrap]. rewrite E2. reflexivity.
      * rewrite !app_length in L2. cbn [List.length oid] in L2. lia.
      * apply B2. rewrite !forallb_app, B1 by exact IB. reflexivity.
Qed.
End nest.

Lemma content_info_deep : exists W o, session ["rfc5652"] = OK W /\ schema W "rfc5652" "ContentInfo" = Some (content_info, o) /\
  forall j k, j <= 126 -> (17 + 2 * j) * (N.of_nat k + 1) < 256 ^ j ->
  exists s v, decode_open (reg_of W) content_info s = Ok (v, []) /\ levels v = S k /\ N.of_nat (List.length s) <= (17 + 2 * j) * (N.of_nat k + 1).
Proof.
  destruct (check_sound ["rfc5652"] "rfc5652" "ContentInfo" (fun W t => asn1_eqb t content_info
    && (opt_eqb asn1_eqb (reg_of W ("rfc5652", "cmsContentTypesMap") (KeyOid id_ct_contentInfo)) (Some content_info)
    && opt_eqb asn1_eqb (reg_of W ("rfc5652", "cmsContentTypesMap") (KeyOid id_data)) (Some octets_type)))) as (W & t & o & E & HS & K).
  - vm_cast_no_check (eq_refl true).
  - apply andb_true_iff in K. destruct K as [K0 K]. apply andb_true_iff in K. destruct K as [K1 K2].
    apply asn1_eqb_sound in K0. subst t. exists W, o. split; [exact E|]. split; [exact HS|].
    destruct (reg_of W ("rfc5652", "cmsContentTypesMap") (KeyOid id_ct_contentInfo)) as [t1|] eqn:R1; [|discriminate K1].
    destruct (reg_of W ("rfc5652", "cmsContentTypesMap") (KeyOid id_data)) as [t2|] eqn:R2; [|discriminate K2].
    cbn [opt_eqb] in K1, K2. apply asn1_eqb_sound in K1. apply asn1_eqb_sound in K2. subst t1 t2.
    intros j k J L. destruct (nest_ok (reg_of W) R1 R2 j J k L) as (C & b & EB & LB & _).
    exists b, (nest k). split; [|split; [apply nest_levels|exact LB]].
    rewrite <- (app_nil_r b). apply (decode_open_round_trip (reg_of W)).
    + intros d q u G. exact (proj1 (registered_ok ["rfc5652"] W d q u E G)).
    + reflexivity.
    + exact (type_open_plain ["rfc5652"] W _ _ _ _ E HS).
    + exists (S k). exact C.
    + exact EB.
Qed.
End codec.
