(** tools/pkcs7dump.py and tools/cmcdump.py, run from their source. *)
From Coq Require Import List String Ascii ZArith NArith Bool Lia.
From Verif Require Pem.Text Pem.Base64 Pem.Pem Pem.PemFacts.
From Verif Require Import Py.Syntax Asn1.Types Py.Eval Asn1.Bytes Asn1.Der Load.Import Load.Computed Load.Session Load.Schemas
  Tools.Recode Tools.Layers Tools.Programs Tools.ScriptLang Gen.Scripts Tools.Script Tools.ScriptPem Tools.ScriptTools Tools.ScriptRuns Tools.ScriptMore.
Import ListNotations.
Open Scope string_scope.
Open Scope list_scope.
Opaque T session.

Section codec.
Context {Cdc : codec}.

(** ** Object identifiers as keys *)

Lemma arcs_oid : forall l a, tuple_arcs (map (fun x => KInt (Z.of_N x)) l) a = Some (oid_eqb l a).
Proof.
  induction l as [|x l IH]; intros [|y a]; try reflexivity. cbn [map tuple_arcs]. unfold oid_eqb. cbn [list_eqb].
  destruct (Z.eqb_spec (Z.of_N x) (Z.of_N y)) as [Q|Q].
  - apply N2Z.inj in Q. subst y. rewrite N.eqb_refl. exact (IH a).
  - destruct (N.eqb_spec x y) as [->|N]; [contradiction|reflexivity].
Qed.
(** The display in pkcs7dump.py:41-48 (the objects have the types [ty]). *)
Definition p7_display (ty : string -> pv) : list (pv * pv) := map (fun q => (KTuple (map (fun x => KInt (Z.of_N x)) (fst q)), ty (snd q))) p7_map.
Fixpoint last_with (l : list (list N * string)) (a : list N) : option string :=
  match l with
  | [] => None
  | q :: l' => match last_with l' a with Some w => Some w | None => if oid_eqb (fst q) a then Some (snd q) else None end
  end.
Lemma display_at : forall ty t a l, dict_at (map (fun q => (KTuple (map (fun x => KInt (Z.of_N x)) (fst q)), ty (snd q))) l) (KObj t (Some (VOid a)))
  = Some (option_map ty (last_with l a)).
Proof.
  intros ty t a. induction l as [|q l IH]; [reflexivity|]. cbn [map dict_at last_with]. rewrite IH. destruct (last_with l a); [reflexivity|].
  cbn [option_map equals]. rewrite arcs_oid. destruct (oid_eqb (fst q) a); reflexivity.
Qed.
Lemma p7_lookup : forall ty t a, dict_at (p7_display ty) (KObj t (Some (VOid a))) = Some (option_map ty (p7_spec a)).
Proof.
  intros ty t a. unfold p7_display. rewrite display_at. do 2 f_equal. unfold p7_spec, p7_map. cbn [last_with find fst snd].
  repeat match goal with |- context [oid_eqb ?l a] => let Q := fresh "Q" in destruct (oid_eqb l a) eqn:Q; [apply oid_eqb_eq in Q; subst a; reflexivity|] end.
  reflexivity.
Qed.
Lemma p7_lookup_none : forall ty v, (forall t a, v <> KObj t (Some (VOid a))) -> (exists t o, v = KObj t o) -> dict_at (p7_display ty) v = None.
Proof.
  intros ty v N (t & o & ->). unfold p7_display, p7_map. cbn [map dict_at fst snd].
  destruct o as [[]|]; try reflexivity. exfalso. exact (N _ _ eq_refl).
Qed.
Lemma component_typed : forall t v n o, component t v n = Some o -> exists t', component_type t n = Some t'.
Proof.
  intros t v n o H. unfold component in H. destruct t as [|s m fs| |]; try discriminate H. destruct v; try discriminate H.
  destruct (existsb (String.eqb n) (fnames fs)) eqn:X; [|discriminate H]. cbn [component_type].
  apply existsb_exists in X. destruct X as (y & I & Q). apply String.eqb_eq in Q. subst y.
  destruct (find (fun f => String.eqb (fname f) n) fs) as [f|] eqn:F; [eauto|]. exfalso.
  unfold fnames in I. apply in_map_iff in I. destruct I as (f & Q & I). pose proof (find_none _ _ F f I) as X. cbv beta in X. rewrite Q, String.eqb_refl in X. discriminate X.
Qed.
Lemma member_component : forall t v n, match component t v n with
  | Some o => exists t', component_type t n = Some t' /\ member t (Some v) n = Some (KObj t' o)
  | None => member t (Some v) n = None end.
Proof.
  intros t v n. unfold member. destruct (component t v n) as [o|] eqn:C.
  - destruct (component_typed _ _ _ _ C) as [t' T]. exists t'. rewrite T. auto.
  - destruct (component_type t n); reflexivity.
Qed.

(** ** pkcs7dump *)

Section p7.
Variable W : world.
Variable argv : list Text.text.
Variable n : nat.
Local Notation pem := (pem_calls W argv n).
Local Notation blk := (block W argv pem n []).
Local Ltac strs := cbn [String.eqb Ascii.eqb Bool.eqb existsb builtins orb var append].
Local Ltac sx := cbn [exec]; unfold test; cbn [eval]; unfold bind, of_some, name; rewrite ?var_put; strs;
  repeat match goal with H : var _ _ = _ |- _ => rewrite H end; unfold ret; cbv beta iota;
  unfold attribute_of; strs; unfold ret; cbv beta iota; unfold calls; cbv beta iota; unfold builtin, method; strs; cbv beta iota;
  unfold bind, of_some, ret; cbv beta iota.

Definition p7_agrees (r : p7_end) (o : how * list pv) : Prop :=
  match r with
  | P7Printed w => exists t v x t', type_of W "rfc2315" "ContentInfo" = Some t /\ type_of W "rfc2315" x = Some t' /\ o = (Completed, [KPretty t v; KPretty t' w])
  | P7KeyError => exists t v, type_of W "rfc2315" "ContentInfo" = Some t /\ o = (Failed KeyError, [KPretty t v])
  | P7Raised => exists e l, (List.length l <= 1)%nat /\ o = (Failed e, l)
  | P7Unm => exists l, (List.length l <= 1)%nat /\ o = (Unmodelled, l)
  end.
Local Ltac fin := unfold p7_agrees; first [do 2 eexists; split; [|reflexivity]; cbn; lia | eexists; split; [|reflexivity]; cbn; lia].

Definition p7_classes : list string := ["ContentInfo"; "Data"; "SignedData"; "EnvelopedData"; "SignedAndEnvelopedData"; "DigestedData"; "EncryptedData"].
Variable ty : string -> asn1.
Variable ob : string -> option aval.
Hypothesis READY : forall x, In x p7_classes -> ready W "rfc2315" x /\ schema W "rfc2315" x = Some (ty x, ob x).

Lemma class_object : forall E x s, In x p7_classes -> var E "rfc2315" = Some (KModule "rfc2315") ->
  eval W argv pem [] E (XCall (XAttr (XName "rfc2315") x) [] []) s = Val (KObj (ty x) (ob x)) s.
Proof. intros E x s I V. destruct (READY x I) as [R S]. exact (new_object W argv n E "rfc2315" x _ _ s R S eq_refl V). Qed.
Lemma class_type : forall x, In x p7_classes -> type_of W "rfc2315" x = Some (ty x).
Proof. intros x I. unfold type_of. rewrite (proj2 (READY x I)). reflexivity. Qed.

(** The items of a display. *)
Definition items (E : vars) := fix all (l : list (px * px)) : M (list (pv * pv)) :=
  match l with [] => ret [] | (k, e) :: l' => let* a := eval W argv pem [] E k in let* v := eval W argv pem [] E e in let* vs := all l' in ret ((a, v) :: vs) end.
(** After the first assertion. *)
Definition p7_rest : list ps := skipn 8 pkcs7dump_py.
Lemma p7_runs_body : forall E b f,
  var E "sys" = Some (KName "sys") -> var E "decoder" = Some (KName "pyasn1.codec.der.decoder") -> var E "encoder" = Some (KName "pyasn1.codec.der.encoder") ->
  var E "rfc2315" = Some (KModule "rfc2315") -> var E "print" = None -> var E "len" = None -> var E "substrate" = Some (KBytes b) ->
  p7_agrees (p7_body W b) (observe (blk E p7_rest (mkIO f []))).
Proof.
  intros E b f HS HD HE HM HP HL HB. unfold p7_body. rewrite (class_type "ContentInfo") by (cbn; auto). set (t := ty "ContentInfo").
  unfold p7_rest, pkcs7dump_py. cbn [skipn]. unfold recode.
  assert (DX : forall i, exec W argv pem n [] E (PAssign ["contentInfo"; "rest"] (XCall (XAttr (XName "decoder") "decode") [(XName "substrate")] [("asn1Spec", (XCall (XAttr (XName "rfc2315") "ContentInfo") [] []))])) i
    = match decode t b with Ok (v, rest) => Val (put (put E "contentInfo" (KObj t (Some v))) "rest" (KBytes rest), Next) i | Unm => Unmod i | _ => Throw PyAsn1Error i end).
  { intro i. cbn [exec].
    assert (EV : eval W argv pem [] E (XCall (XAttr (XName "decoder") "decode") [(XName "substrate")] [("asn1Spec", (XCall (XAttr (XName "rfc2315") "ContentInfo") [] []))]) i
      = match decode t b with Ok (v, rest) => Val (KTuple [KObj t (Some v); KBytes rest]) i | Unm => Unmod i | _ => Throw PyAsn1Error i end).
    { change (eval W argv pem [] E (XCall (XAttr (XName "decoder") "decode") [(XName "substrate")] [("asn1Spec", (XCall (XAttr (XName "rfc2315") "ContentInfo") [] []))]) i)
        with (bind (eval W argv pem [] E (XAttr (XName "decoder") "decode")) (fun g => bind (bind (eval W argv pem [] E (XName "substrate")) (fun v => bind (ret []) (fun vs => ret (v :: vs))))
          (fun vs => bind (bind (eval W argv pem [] E (XCall (XAttr (XName "rfc2315") "ContentInfo") [] [])) (fun v => bind (ret []) (fun ks => ret (("asn1Spec", v) :: ks)))) (fun ks => calls W pem g vs ks))) i).
      rewrite (bind_val _ _ _ (KName "pyasn1.codec.der.decoder.decode") i) by (cbn [eval]; unfold name; rewrite HD; reflexivity).
      rewrite (bind_val _ _ _ [KBytes b] i) by (cbn [eval]; unfold name; rewrite HB; reflexivity).
      rewrite (bind_val _ _ _ [("asn1Spec", KObj t (ob "ContentInfo"))] i) by (rewrite (bind_val _ _ _ _ _ (class_object E "ContentInfo" i ltac:(cbn; auto) HM)); reflexivity).
      cbn [calls]. unfold builtin. strs. cbn [substrate_of]. unfold bind, ret. cbv beta iota. destruct (decode t b) as [[v r]| | |]; reflexivity. }
    unfold bind. rewrite EV. destruct (decode t b) as [[v r]| | |]; reflexivity. }
  destruct (decode t b) as [[v rest]| | |] eqn:D; cycle 1.
  1-3: first [erewrite seq_throw by exact (DX _); fin | erewrite seq_unmod by exact (DX _); fin].
  cbn [rbind]. rewrite (seq _ _ _ _ _ _ _ _ _ _ _ (DX _)). clear DX.
  set (E1 := put (put E "contentInfo" (KObj t (Some v))) "rest" (KBytes rest)).
  set (s' := match rest with [] => b | _ => firstn (List.length b - List.length rest) b end).
  assert (CUT : exists E2, exec W argv pem n [] E1 (PIf (XName "rest") [PAssign ["substrate"] (XUpto (XName "substrate") (XNeg (XCall (XName "len") [(XName "rest")] [])))] []) (mkIO f []) = Val (E2, Next) (mkIO f []) /\
    var E2 "substrate" = Some (KBytes s') /\ forall y, y <> "substrate" -> var E2 y = var E1 y).
  { destruct rest as [|r0 rest].
    - exists E1. split; [unfold E1; sx; reflexivity|]. split; [unfold E1, s'; rewrite !var_put; strs; exact HB|reflexivity].
    - exists (put E1 "substrate" (KBytes s')). split.
      + unfold E1, s'. sx. cbn [truth nonempty]; unfold ret; cbv beta iota; sx; cbn [upto].
        rewrite Z.opp_involutive, Nat2Z.id; destruct (Z.ltb_spec (- Z.of_nat (List.length (r0 :: rest))) 0); try reflexivity; cbn in *; lia.
      + split; [rewrite var_put; reflexivity|]. intros y N. rewrite var_put. destruct (String.eqb_spec y "substrate"); [contradiction|reflexivity]. }
  destruct CUT as (E2 & X & VB & V2). rewrite (seq _ _ _ _ _ _ _ _ _ _ _ X). clear X.
  assert (VD : var E2 "decoder" = Some (KName "pyasn1.codec.der.decoder")) by (rewrite V2 by discriminate; unfold E1; rewrite !var_put; strs; exact HD).
  assert (VE : var E2 "encoder" = Some (KName "pyasn1.codec.der.encoder")) by (rewrite V2 by discriminate; unfold E1; rewrite !var_put; strs; exact HE).
  assert (VM : var E2 "rfc2315" = Some (KModule "rfc2315")) by (rewrite V2 by discriminate; unfold E1; rewrite !var_put; strs; exact HM).
  assert (VP : var E2 "print" = None) by (rewrite V2 by discriminate; unfold E1; rewrite !var_put; strs; exact HP).
  assert (VC : var E2 "contentInfo" = Some (KObj t (Some v))) by (rewrite V2 by discriminate; unfold E1; rewrite !var_put; strs; reflexivity).
  clearbody E1. clear E E1 HS HD HE HM HP HL HB V2.
  assert (PX : exec W argv pem n [] E2 (PExpr (XCall (XName "print") [XCall (XAttr (XName "contentInfo") "prettyPrint") [] []] [])) (mkIO f []) = Val (E2, Next) (mkIO f [KPretty t v])) by (sx; reflexivity).
  rewrite (seq _ _ _ _ _ _ _ _ _ _ _ PX). clear PX.
  assert (AX : exec W argv pem n [] E2 (PAssert (XCmp "==" (XCall (XAttr (XName "encoder") "encode") [XName "contentInfo"] []) (XName "substrate"))) (mkIO f [KPretty t v])
    = match encode t v with
      | Ok e => if list_eqb N.eqb e s' then Val (E2, Next) (mkIO f [KPretty t v]) else Throw AssertionError (mkIO f [KPretty t v])
      | Unm => Unmod (mkIO f [KPretty t v]) | _ => Throw PyAsn1Error (mkIO f [KPretty t v]) end).
  { sx. destruct (encode t v) as [e| | |]; [|reflexivity..]. unfold of_res, ret; cbv beta iota; unfold compare; strs; cbn [equals]; destruct (list_eqb N.eqb e s'); reflexivity. }
  destruct (encode t v) as [e| | |] eqn:EN; cbn [rbind].
  2-4: first [rewrite (seq_throw _ _ _ _ _ _ _ _ _ _ _ AX); fin | rewrite (seq_unmod _ _ _ _ _ _ _ _ AX); fin].
  destruct (list_eqb N.eqb e s').
  2: { rewrite (seq_throw _ _ _ _ _ _ _ _ _ _ _ AX); fin. }
  rewrite (seq _ _ _ _ _ _ _ _ _ _ _ AX). clear AX.
  set (i1 := mkIO f [KPretty t v]).
  (* contentType = ... *)
  pose proof (member_component t v "contentType") as MT.
  assert (TX : exec W argv pem n [] E2 (PAssign ["contentType"] (XCall (XAttr (XName "contentInfo") "getComponentByName") [(XStr "contentType")] [])) i1
    = match member t (Some v) "contentType" with Some o => Val (put E2 "contentType" o, Next) i1 | None => Unmod i1 end).
  { sx. change (plain (chars "contentType")) with "contentType". destruct (member t (Some v) "contentType"); reflexivity. }
  destruct (component t v "contentType") as [ct|] eqn:CT.
  2: { rewrite MT in TX. rewrite (seq_unmod _ _ _ _ _ _ _ _ TX). fin. }
  destruct MT as (tt & _ & MT). rewrite MT in TX. rewrite (seq _ _ _ _ _ _ _ _ _ _ _ TX). clear TX MT.
  set (E3 := put E2 "contentType" (KObj tt ct)).
  assert (W3 : forall y, y <> "contentType" -> var E3 y = var E2 y).
  { intros y N. unfold E3. rewrite var_put. destruct (String.eqb_spec y "contentType"); [contradiction|reflexivity]. }
  assert (V3 : var E3 "contentType" = Some (KObj tt ct)) by (unfold E3; rewrite var_put; reflexivity).
  assert (VM3 : var E3 "rfc2315" = Some (KModule "rfc2315")) by (rewrite W3 by discriminate; exact VM).
  clearbody E3.
  (* the display *)
  set (typ := fun x => KObj (ty x) (ob x)).
  match goal with |- context [blk E3 (PAssign ["contentInfoMap"] ?d :: _) _] => set (disp := d) end.
  assert (DV : eval W argv pem [] E3 disp i1 = Val (KDict (p7_display typ)) i1).
  { unfold disp.
    assert (C : forall x i, In x p7_classes -> eval W argv pem [] E3 (XCall (XAttr (XName "rfc2315") x) [] []) i = Val (typ x) i) by (intros x i I; exact (class_object E3 x i I VM3)).
    assert (ITEM : forall (k e : px) l a w i, eval W argv pem [] E3 k i = Val a i -> eval W argv pem [] E3 e i = Val w i ->
      forall r, items E3 l i = Val r i ->
      items E3 ((k, e) :: l) i = Val ((a, w) :: r) i).
    { intros k e0 l a w i A B r R. unfold items. cbv beta iota. fold (items E3). rewrite (bind_val _ _ _ _ _ A), (bind_val _ _ _ _ _ B), (bind_val _ _ _ _ _ R). reflexivity. }
    match goal with |- eval _ _ _ _ _ (XDict ?dd) _ = _ => 
      change (bind (items E3 dd) (fun vs => ret (KDict vs)) i1 = Val (KDict (p7_display typ)) i1) end.
    transitivity (ret (KDict (p7_display typ)) i1); [|reflexivity]. apply (bind_val _ (fun vs => ret (KDict vs))).
    let r := eval cbn [p7_display p7_map map fst snd Z.of_N] in (p7_display typ) in change (p7_display typ) with r.
    repeat (apply ITEM; [reflexivity|apply C; cbn; auto 10|]). reflexivity. }
  erewrite seq; [|cbn [exec]; rewrite (bind_val _ _ _ _ _ DV); reflexivity]. clear DV disp.
  set (E4 := put E3 "contentInfoMap" (KDict (p7_display typ))).
  assert (U : var E4 "contentType" = Some (KObj tt ct) /\ var E4 "contentInfoMap" = Some (KDict (p7_display typ)) /\ var E4 "contentInfo" = Some (KObj t (Some v)) /\
    var E4 "decoder" = Some (KName "pyasn1.codec.der.decoder") /\ var E4 "print" = None).
  { unfold E4. rewrite !var_put. strs. rewrite (W3 "contentInfo"), (W3 "decoder"), (W3 "print") by discriminate. auto. }
  destruct U as (U1 & U2 & U3 & U4 & U5). clearbody E4. clear W3 V3 VM3 E3 VD VE VM VP VC VB.
  pose proof (member_component t v "content") as MC.
  set (last := PAssign ["content"; "_"] _).
  assert (LX : exec W argv pem n [] E4 last i1 = match member t (Some v) "content" with
     | None => Unmod i1
     | Some c => match dict_at (p7_display typ) (KObj tt ct) with
                 | None => Unmod i1
                 | Some None => Throw KeyError i1
                 | Some (Some sp) => bind (builtin "pyasn1.codec.der.decoder.decode" [c] [("asn1Spec", sp)])
                      (fun r => match r with KTuple vs => let* E' := of_some (assign E4 ["content"; "_"] vs) in ret (E', Next) | _ => unmod end) i1
                 end
     end).
  { unfold last. cbn [exec eval]. unfold bind, of_some, name. rewrite U1, U2, U3, U4. unfold ret. cbv beta iota. unfold attribute_of. strs. unfold ret. cbv beta iota.
    unfold calls at 1 2. unfold method. strs. cbv beta iota. change (plain (chars "content")) with "content".
    destruct (member t (Some v) "content") as [c|]; [|reflexivity]. cbn [of_some subscript]. unfold bind, of_some, ret, throw.
    destruct (dict_at (p7_display typ) (KObj tt ct)) as [[sp|]|]; reflexivity. }
  destruct (component t v "content") as [c|] eqn:CC.
  2: { rewrite MC in LX. rewrite (seq_unmod _ _ _ _ _ _ _ _ LX). destruct ct as [[]|]; fin. }
  destruct MC as (tc & _ & MC). rewrite MC in LX.
  destruct ct as [ct|].
  2: { rewrite p7_lookup_none in LX; [|discriminate|eauto]. rewrite (seq_unmod _ _ _ _ _ _ _ _ LX). fin. }
  assert (OID : (exists a, ct = VOid a) \/ (forall a, ct <> VOid a)) by (destruct ct; try (right; discriminate); left; eauto).
  destruct OID as [[a ->]|NO].
  2: { rewrite p7_lookup_none in LX; [|intros t0 a0 Q; injection Q as _ Q; exact (NO _ Q)|eauto]. rewrite (seq_unmod _ _ _ _ _ _ _ _ LX).
       destruct ct; try fin. exfalso. exact (NO _ eq_refl). }
  rewrite p7_lookup in LX. destruct (p7_spec a) as [x|] eqn:SP; cbn [option_map] in LX.
  2: { rewrite (seq_throw _ _ _ _ _ _ _ _ _ _ _ LX). exists t, v. split; [apply class_type; cbn; auto|reflexivity]. }
  assert (IX : In x p7_classes).
  { unfold p7_spec in SP. destruct (find _ p7_map) as [[a0 y]|] eqn:F; [|discriminate SP]. injection SP as ->.
    apply find_some in F. destruct F as [F _]. unfold p7_map in F. cbn [In] in F. repeat destruct F as [F|F]; try contradiction F; injection F as _ <-; cbn; auto 10. }
  rewrite (class_type x IX). unfold typ in LX. unfold builtin in LX. revert LX. strs. intro LX.
  destruct c as [c|].
  2: { cbn [substrate_of] in LX. rewrite (seq_throw _ _ _ _ _ _ _ _ _ _ _ LX). fin. }
  destruct c; try (cbn [substrate_of] in LX; rewrite (seq_unmod _ _ _ _ _ _ _ _ LX); fin).
  cbn [substrate_of] in LX. unfold bind, ret in LX. cbv beta iota in LX.
  match type of LX with context [decode (ty x) ?z] => destruct (decode (ty x) z) as [[w r]| | |] eqn:DW end; cbn [of_res] in LX.
  - erewrite seq by exact LX. cbn [block]. unfold bind at 1.
    assert (PX : exec W argv pem n [] (put (put E4 "content" (KObj (ty x) (Some w))) "_" (KBytes r)) (PExpr (XCall (XName "print") [XCall (XAttr (XName "content") "prettyPrint") [] []] [])) i1
      = Val (put (put E4 "content" (KObj (ty x) (Some w))) "_" (KBytes r), Next) (mkIO f [KPretty t v; KPretty (ty x) w])) by (sx; reflexivity).
    cbn [assign]. rewrite PX. exists t, v, x, (ty x). split; [apply class_type; cbn; auto|]. split; [exact (class_type x IX)|reflexivity].
  - erewrite seq_throw by exact LX. fin.
  - erewrite seq_throw by exact LX. fin.
  - erewrite seq_unmod by exact LX. fin.
Qed.

Lemma p7_runs_all : forall E f, (List.length f < n)%nat ->
  var E "sys" = Some (KName "sys") -> var E "decoder" = Some (KName "pyasn1.codec.der.decoder") -> var E "encoder" = Some (KName "pyasn1.codec.der.encoder") ->
  var E "pem" = Some (KModule "pem") -> var E "rfc2315" = Some (KModule "rfc2315") -> var E "print" = None -> var E "len" = None ->
  p7_agrees (Programs.pkcs7dump W f) (observe (blk E (skipn 6 pkcs7dump_py) (mkIO f []))).
Proof.
  intros E f L HS HD HE HM HR HP HL. unfold Programs.pkcs7dump. pose proof (pem_blocks W argv n p7_markers f [] L) as C.
  unfold pkcs7dump_py at 1. cbn [skipn].
  set (call := XCall (XAttr (XName "pem") "readPemBlocksFromFile") _ _).
  assert (EV : eval W argv pem [] E call (mkIO f []) = pem "readPemBlocksFromFile" (KFile :: map pair_of p7_markers) [] (mkIO f [])).
  { unfold call. cbn [eval]. unfold bind, of_some, name. rewrite HM, HS. reflexivity. }
  rewrite C in EV. clear C. destruct (Pem.readPemBlocksFromFile p7_markers f) as [[[i s]|e] f']; cbn [fst pem_result] in *.
  2: { erewrite seq_throw; [|cbn [exec]; exact (bind_throw _ _ _ _ _ EV)]. fin. }
  erewrite seq; [|cbn [exec]; rewrite (bind_val _ _ _ _ _ EV); reflexivity].
  set (E1 := put (put E "idx" (KInt i)) "substrate" (of_substrate s)).
  assert (VB : var E1 "substrate" = Some (of_substrate s)) by (unfold E1; rewrite !var_put; reflexivity).
  assert (AX : exec W argv pem n [] E1 (PAssert (XName "substrate")) (mkIO f' []) = if Pem.truthy s then Val (E1, Next) (mkIO f' []) else Throw AssertionError (mkIO f' [])).
  { cbn [exec]. unfold test. cbn [eval]. unfold bind, of_some, name. rewrite VB. destruct s as [|[|b0 b]]; reflexivity. }
  destruct (Pem.truthy s) eqn:TR.
  2: { rewrite (seq_throw _ _ _ _ _ _ _ _ _ _ _ AX). fin. }
  rewrite (seq _ _ _ _ _ _ _ _ _ _ _ AX). destruct s as [|b]; [discriminate TR|].
  apply p7_runs_body; try exact VB; unfold E1; rewrite !var_put; strs; assumption.
Qed.
End p7.

Local Ltac skip := erewrite seq; [|reflexivity].
Theorem p7_source : forall h W a n f, session h = OK W -> loaded W "rfc2315" <> None -> (List.length f < n)%nat ->
  p7_agrees W (Programs.pkcs7dump W f) (observe (run_script W n pkcs7dump_py [a] f)).
Proof.
  intros h W a n f S L N.
  destruct (class_ready h W "rfc2315" "ContentInfo" S ltac:(cbn; auto 30) L) as (_ & t0 & _).
  set (ty := fun x => match schema W "rfc2315" x with Some (t, _) => t | None => t0 end).
  set (ob := fun x => match schema W "rfc2315" x with Some (_, o) => o | None => None end).
  assert (R : forall x, In x p7_classes -> ready W "rfc2315" x /\ schema W "rfc2315" x = Some (ty x, ob x)).
  { intros x I. assert (IC : In ("rfc2315", x) tool_classes) by (unfold p7_classes in I; cbn [In] in I; repeat destruct I as [I|I]; try contradiction I; subst x; cbn; auto 30).
    destruct (class_ready h W _ x S IC L) as (RD & t & o & SC & _). split; [exact RD|]. unfold ty, ob. rewrite SC. reflexivity. }
  unfold run_script, pkcs7dump_py. do 6 skip.
  apply (p7_runs_all W [a] n ty ob R); first [exact N|reflexivity].
Qed.

(** ** cmcdump *)

(** The constants of the tool are OBJECT IDENTIFIER objects. *)
Definition cmc_names : list (string * string * list N) :=
  [("rfc5652", "id_ct_contentInfo", [1; 2; 840; 113549; 1; 9; 16; 1; 6]%N); ("rfc5652", "id_signedData", [1; 2; 840; 113549; 1; 7; 2]%N);
   ("rfc6402", "id_cct_PKIData", [1; 3; 6; 1; 5; 5; 7; 12; 2]%N)].
Lemma cmc_names_computed : match session ["rfc6402"] with
  | OK W => forallb (fun q => match attribute W (fst (fst q)) (snd (fst q)) with Some (PInst _ (Some (VOid a))) => oid_eqb a (snd q) | _ => false end) cmc_names
  | _ => false end = true.
Proof. vm_cast_no_check (eq_refl true). Qed.
Lemma cmc_name : forall h W m x a, session h = OK W -> In (m, x, a) cmc_names -> loaded W m <> None ->
  exists R t, loaded W m = Some R /\ lookup (m_ns R) x = Some (PInst t (Some (VOid a))).
Proof.
  intros h W m x a S I L. pose proof cmc_names_computed as K. destruct (session ["rfc6402"]) as [W0|e|e] eqn:S0; [|discriminate K..].
  pose proof (proj1 (forallb_forall _ _) K _ I) as A. clear K. cbn [fst snd] in A.
  destruct (loaded W0 m) as [R0|] eqn:L0; [|unfold attribute in A; rewrite L0 in A; discriminate A].
  assert (N0 : loaded W0 m <> None) by (rewrite L0; discriminate).
  rewrite <- (attribute_independent _ _ _ _ m x S S0 L N0) in A. unfold attribute in A.
  destruct (loaded W m) as [R|]; [|congruence]. exists R. destruct (lookup (m_ns R) x) as [p|]; [|discriminate A].
  destruct p; try discriminate A. destruct v as [v|]; try discriminate A. destruct v; try discriminate A. apply oid_eqb_eq in A. subst. eauto.
Qed.

Section cmc.
Variable W : world.
Variable argv : list Text.text.
Variable n : nat.
Local Notation pem := (pem_calls W argv n).
Local Notation blk := (block W argv pem n []).
Local Ltac strs := cbn [String.eqb Ascii.eqb Bool.eqb existsb builtins orb var append].
Local Ltac sx := cbn [exec]; unfold test; cbn [eval]; unfold bind, of_some, name; rewrite ?var_put; strs;
  repeat match goal with H : var _ _ = _ |- _ => rewrite H end; unfold ret; cbv beta iota;
  unfold attribute_of; strs; unfold ret; cbv beta iota; unfold calls; cbv beta iota; unfold builtin, method; strs; cbv beta iota;
  unfold bind, of_some, ret; cbv beta iota.

Variables tci tsd te tpd : asn1.
Variables oci osd opd : option aval.
Hypothesis RCI : ready W "rfc5652" "ContentInfo" /\ schema W "rfc5652" "ContentInfo" = Some (tci, oci).
Hypothesis RSD : ready W "rfc5652" "SignedData" /\ schema W "rfc5652" "SignedData" = Some (tsd, osd).
Hypothesis RPD : ready W "rfc6402" "PKIData" /\ schema W "rfc6402" "PKIData" = Some (tpd, opd).
Hypothesis NAMES : forall m x a, In (m, x, a) cmc_names -> exists R t, loaded W m = Some R /\ lookup (m_ns R) x = Some (PInst t (Some (VOid a))).
Hypothesis CTE : component_type tsd "encapContentInfo" = Some te.
Hypothesis ND1 : no_default tci = true.
Hypothesis ND2 : no_default tsd = true.
Hypothesis ND3 : no_default te = true.
Hypothesis STEP : forall a d, cmc_step W a d =
      if oid_eqb a [1; 2; 840; 113549; 1; 9; 16; 1; 6]%N then unwrap tci d (proceed tci "contentType" "content")
      else if oid_eqb a [1; 2; 840; 113549; 1; 7; 2]%N then
        unwrap tsd d (fun v => match component tsd v "encapContentInfo" with
                               | Some (Some e) => proceed te "eContentType" "eContent" e
                               | _ => Out
                               end)
      else if oid_eqb a [1; 3; 6; 1; 5; 5; 7; 12; 2]%N then unwrap tpd d (fun _ => Stop)
      else Layers.Continue a d.

(** The names that are never assigned to. *)
Definition base (E : vars) : Prop :=
  var E "sys" = Some (KName "sys") /\ var E "decoder" = Some (KName "pyasn1.codec.der.decoder") /\ var E "encoder" = Some (KName "pyasn1.codec.der.encoder") /\
  var E "pem" = Some (KModule "pem") /\ var E "rfc5652" = Some (KModule "rfc5652") /\ var E "rfc6402" = Some (KModule "rfc6402") /\ var E "print" = None.
Lemma base_put : forall E x v, In x ["layer"; "rest"; "next_layer"; "data"; "substrate"; "_"; "reqCnt"] -> base E -> base (put E x v).
Proof.
  intros E x v I B. unfold base in *. rewrite !var_put. cbn [In] in I. repeat destruct I as [I|I]; try contradiction I; subst x; exact B.
Qed.
Definition data_is (w : pv) (d : option bytes) : Prop :=
  match d with Some s => w = KBytes s \/ exists t, w = KObj t (Some (VOcts s)) | None => exists t, w = KObj t None end.
Lemma data_substrate : forall w d i, data_is w d -> substrate_of w i = match d with Some s => Val s i | None => Throw PyAsn1Error i end.
Proof. intros w [s|] i H; cbn in H; [destruct H as [->|[t ->]]|destruct H as [t ->]]; reflexivity. Qed.
Lemma data_equal : forall w s e, data_is w (Some s) -> equals (KBytes e) w = Some (list_eqb N.eqb e s).
Proof. intros w s e [->|[t ->]]; reflexivity. Qed.

(** layer, rest = decode(data, ...); two assertions; two lines. *)
Definition layer_part (m x title : string) : list ps :=
  [PAssign ["layer"; "rest"] (XCall (XAttr (XName "decoder") "decode") [XName "data"] [("asn1Spec", XCall (XAttr (XName m) x) [] [])]);
   PAssert (XCmp "==" (XCall (XAttr (XName "encoder") "encode") [XName "layer"] []) (XName "data"));
   PAssert (XNot (XName "rest"));
   PExpr (XCall (XName "print") [XStr title] []);
   PExpr (XCall (XName "print") [XCall (XAttr (XName "layer") "prettyPrint") [] []] [])].
Lemma decode_call : forall E src m x t o w i, base E -> var E src = Some w -> ready W m x -> schema W m x = Some (t, o) ->
  var E m = Some (KModule m) -> String.eqb m "pem" = false ->
  eval W argv pem [] E (XCall (XAttr (XName "decoder") "decode") [XName src] [("asn1Spec", XCall (XAttr (XName m) x) [] [])]) i
  = bind (substrate_of w) (fun b => let* (x, rest) := of_res (decode t b) in ret (KTuple [KObj t (Some x); KBytes rest])) i.
Proof.
  intros E src m x t o w i B V R S VM NP. destruct B as (_ & HD & _).
  change (eval W argv pem [] E (XCall (XAttr (XName "decoder") "decode") [XName src] [("asn1Spec", XCall (XAttr (XName m) x) [] [])]) i)
    with (bind (eval W argv pem [] E (XAttr (XName "decoder") "decode")) (fun g => bind (bind (eval W argv pem [] E (XName src)) (fun v => bind (ret []) (fun vs => ret (v :: vs))))
          (fun vs => bind (bind (eval W argv pem [] E (XCall (XAttr (XName m) x) [] [])) (fun v => bind (ret []) (fun ks => ret (("asn1Spec", v) :: ks)))) (fun ks => calls W pem g vs ks))) i).
  rewrite (bind_val _ _ _ (KName "pyasn1.codec.der.decoder.decode") i) by (cbn [eval]; unfold name; rewrite HD; reflexivity).
  rewrite (bind_val _ _ _ [w] i) by (cbn [eval]; unfold name; rewrite V; reflexivity).
  rewrite (bind_val _ _ _ [("asn1Spec", KObj t o)] i) by (rewrite (bind_val _ _ _ _ _ (new_object W argv n E m x t o i R S NP VM)); reflexivity).
  reflexivity.
Qed.
Lemma layer_runs : forall E m x title t o w d f p, base E -> var E "data" = Some w -> data_is w d -> ready W m x /\ schema W m x = Some (t, o) ->
  In m ["rfc5652"; "rfc6402"] ->
  (exists v s, encode t v = Ok s /\ (forall K, unwrap t d K = K v) /\ forall l,
     blk E (layer_part m x title ++ l) (mkIO f p) = blk (put (put E "layer" (KObj t (Some v))) "rest" (KBytes [])) l (mkIO f (p ++ [KText (chars title); KPretty t v]))) \/
  ((forall K, unwrap t d K = Fail) /\ exists e, forall l, blk E (layer_part m x title ++ l) (mkIO f p) = Throw e (mkIO f p)) \/
  (forall K, unwrap t d K = Out).
Proof.
  intros E m x title t o w d f p B V D [R S] IM.
  assert (VM : var E m = Some (KModule m) /\ String.eqb m "pem" = false).
  { destruct B as (_ & _ & _ & _ & B5 & B6 & _). destruct IM as [<-|[<-|[]]]; auto. }
  destruct VM as [VM NP].
  pose proof (decode_call E "data" m x t o w (mkIO f p) B V R S VM NP) as EV. unfold bind at 1 in EV. rewrite (data_substrate w d _ D) in EV.
  unfold unwrap. unfold layer_part. cbn [app]. set (i0 := mkIO f p) in *.
  destruct d as [s|].
  2: { right. left. split; [reflexivity|]. exists PyAsn1Error. intro l. apply seq_throw. cbn [exec]. unfold bind. rewrite EV. reflexivity. }
  unfold bind in EV. destruct (decode t s) as [[v rest]| | |] eqn:DC; cbn [of_res] in EV; cycle 1.
  1,2: right; left; split; [reflexivity|]; exists PyAsn1Error; intro l; apply seq_throw; cbn [exec]; unfold bind; rewrite EV; reflexivity.
  { right. right. reflexivity. }
  set (E1 := put (put E "layer" (KObj t (Some v))) "rest" (KBytes rest)).
  assert (S1 : exec W argv pem n [] E (PAssign ["layer"; "rest"] (XCall (XAttr (XName "decoder") "decode") [XName "data"] [("asn1Spec", XCall (XAttr (XName m) x) [] [])])) i0 = Val (E1, Next) i0).
  { cbn [exec]. unfold bind. rewrite EV. reflexivity. }
  assert (VL : var E1 "layer" = Some (KObj t (Some v))) by (unfold E1; rewrite !var_put; reflexivity).
  assert (VR : var E1 "rest" = Some (KBytes rest)) by (unfold E1; rewrite !var_put; reflexivity).
  assert (VD : var E1 "data" = Some w) by (unfold E1; rewrite !var_put; strs; exact V).
  assert (VE : var E1 "encoder" = Some (KName "pyasn1.codec.der.encoder")) by (unfold E1; rewrite !var_put; strs; exact (proj1 (proj2 (proj2 B)))).
  assert (VP : var E1 "print" = None) by (unfold E1; rewrite !var_put; strs; apply B).
  assert (S2 : exec W argv pem n [] E1 (PAssert (XCmp "==" (XCall (XAttr (XName "encoder") "encode") [XName "layer"] []) (XName "data"))) i0
    = match encode t v with
      | Ok e => if list_eqb N.eqb e s then Val (E1, Next) i0 else Throw AssertionError i0
      | Unm => Unmod i0 | _ => Throw PyAsn1Error i0 end).
  { sx. destruct (encode t v) as [e| | |]; [|reflexivity..]. unfold of_res, ret; cbv beta iota; unfold compare; strs. rewrite (data_equal w s e D). destruct (list_eqb N.eqb e s); reflexivity. }
  destruct (encode t v) as [e| | |] eqn:EN; cycle 1.
  1,2: right; left; split; [reflexivity|]; exists PyAsn1Error; intro l; rewrite (seq _ _ _ _ _ _ _ _ _ _ _ S1); exact (seq_throw _ _ _ _ _ _ _ _ _ _ _ S2).
  { right. right. reflexivity. }
  destruct (list_eqb N.eqb e s) eqn:Q.
  2: { right. left. split; [reflexivity|]. exists AssertionError. intro l. rewrite (seq _ _ _ _ _ _ _ _ _ _ _ S1). exact (seq_throw _ _ _ _ _ _ _ _ _ _ _ S2). }
  assert (S3 : exec W argv pem n [] E1 (PAssert (XNot (XName "rest"))) i0 = match rest with [] => Val (E1, Next) i0 | _ => Throw AssertionError i0 end).
  { sx. destruct rest; reflexivity. }
  destruct rest as [|r0 rest].
  2: { right. left. split; [reflexivity|]. exists AssertionError. intro l. rewrite (seq _ _ _ _ _ _ _ _ _ _ _ S1), (seq _ _ _ _ _ _ _ _ _ _ _ S2). exact (seq_throw _ _ _ _ _ _ _ _ _ _ _ S3). }
  left. exists v, e. split; [exact EN|]. split; [reflexivity|]. intro l.
  rewrite (seq _ _ _ _ _ _ _ _ _ _ _ S1), (seq _ _ _ _ _ _ _ _ _ _ _ S2), (seq _ _ _ _ _ _ _ _ _ _ _ S3).
  rewrite (seq _ _ _ _ _ _ _ _ _ E1 (mkIO f (p ++ [KText (chars title)]))) by (sx; reflexivity).
  rewrite (seq _ _ _ _ _ _ _ _ _ E1 (mkIO f ((p ++ [KText (chars title)]) ++ [KPretty t v]))) by (sx; reflexivity).
  rewrite <- app_assoc. reflexivity.
Qed.

(** No OBJECT IDENTIFIER without arcs is encoded. *)
Lemma oid_arcs : forall opn ine t c, enc (VOid []) opn ine t = Ok c -> False.
Proof.
  intros opn ine t c H. cbn [enc] in H. destruct t as [k m| | |]; try discriminate H. destruct k; cbn in H; discriminate H.
Qed.
Lemma oid_member : forall t v opn ine s nm a, no_default t = true -> enc v opn ine t = Ok s -> component t v nm = Some (Some (VOid a)) -> a <> [].
Proof.
  intros t v opn ine s nm a ND EN C ->. destruct (component_slot _ _ _ _ C) as (ss & m & fs & vs & -> & -> & SL).
  pose proof (no_default_seq _ _ _ ND). subst ss. destruct (seq_part _ _ _ _ _ _ _ _ ND EN SL) as (g & ine' & c & _ & X & _). exact (oid_arcs _ _ _ _ X).
Qed.

Definition loop_body : list ps := match nth 13 cmcdump_py PBreak with PWhile _ b => b | _ => [] end.
Definition title1 : string := " * New layer (wrapper):".
Definition title2 : string := " * New layer (pkidata):".
Definition at_ (E : vars) (a : list N) (d : option bytes) : Prop :=
  base E /\ (exists t, var E "next_layer" = Some (KObj t (Some (VOid a)))) /\ (exists w, var E "data" = Some w /\ data_is w d) /\ a <> [].
Lemma name_test : forall E m x b a t i, base E -> In (m, x, b) cmc_names -> var E "next_layer" = Some (KObj t (Some (VOid a))) ->
  test W argv pem [] E (XCmp "==" (XName "next_layer") (XAttr (XName m) x)) i = Val (oid_eqb a b) i.
Proof.
  intros E m x b a t i B I V. destruct (NAMES _ _ _ I) as (R & t' & LR & LK).
  assert (VM : var E m = Some (KModule m) /\ String.eqb m "pem" = false).
  { destruct B as (_ & _ & _ & _ & B5 & B6 & _). cbn [cmc_names In] in I. repeat destruct I as [I|I]; try contradiction I; injection I as <- <- <-; auto. }
  destruct VM as [VM NP]. unfold test. cbn [eval]. unfold bind, of_some, name. rewrite V, VM. unfold ret. cbv beta iota.
  unfold attribute_of. rewrite NP, LR, LK. unfold ret. cbv beta iota. unfold compare. strs. cbn [equals]. destruct (oid_eqb a b); reflexivity.
Qed.
Lemma sub_one : forall E x t v nm o i, var E x = Some (KObj t (Some v)) -> component t v (plain (chars nm)) = Some o ->
  exists t', component_type t (plain (chars nm)) = Some t' /\ eval W argv pem [] E (XSub (XName x) (XStr nm)) i = Val (KObj t' o) i.
Proof.
  intros E x t v nm o i V C. pose proof (member_component t v (plain (chars nm))) as M. rewrite C in M. destruct M as (t' & T & M). exists t'. split; [exact T|].
  cbn [eval]. unfold bind, of_some, name. rewrite V. unfold ret. cbv beta iota. cbn [subscript]. rewrite M. reflexivity.
Qed.
Lemma sub_two : forall E x t v nm1 t1 v1 nm2 o i, var E x = Some (KObj t (Some v)) -> component t v (plain (chars nm1)) = Some (Some v1) ->
  component_type t (plain (chars nm1)) = Some t1 -> component t1 v1 (plain (chars nm2)) = Some o ->
  exists t', eval W argv pem [] E (XSub (XSub (XName x) (XStr nm1)) (XStr nm2)) i = Val (KObj t' o) i.
Proof.
  intros E x t v nm1 t1 v1 nm2 o i V C T C2. destruct (sub_one E x t v nm1 _ i V C) as (t1' & T' & EV). rewrite T in T'. injection T' as <-.
  pose proof (member_component t1 v1 (plain (chars nm2))) as M. rewrite C2 in M. destruct M as (t' & _ & M). exists t'.
  change (bind (eval W argv pem [] E (XSub (XName x) (XStr nm1))) (fun w => bind (ret (KText (chars nm2))) (fun j => subscript w j)) i = Val (KObj t' o) i).
  rewrite (bind_val _ _ _ _ _ EV). unfold bind, ret. cbn [subscript]. rewrite M. reflexivity.
Qed.

(** next_layer = ...; data = ... *)
Lemma continues : forall E1 e1 e2 t1 t2 arcs c e f q, base E1 -> (forall i, eval W argv pem [] E1 e1 i = Val (KObj t1 (Some (VOid arcs))) i) ->
  (forall u i, eval W argv pem [] (put E1 "next_layer" u) e2 i = Val (KObj t2 c) i) -> data_is (KObj t2 c) e -> arcs <> [] ->
  exists E', blk E1 [PAssign ["next_layer"] e1; PAssign ["data"] e2] (mkIO f q) = Val (E', Next) (mkIO f q) /\ at_ E' arcs e.
Proof.
  intros E1 e1 e2 t1 t2 arcs c e f q B1 X1 X2 DI NE. set (i1 := mkIO f q).
  set (E2 := put E1 "next_layer" (KObj t1 (Some (VOid arcs)))). set (E3 := put E2 "data" (KObj t2 c)). exists E3.
  pose proof (X2 (KObj t1 (Some (VOid arcs))) i1) as X2'. fold E2 in X2'. split.
  - rewrite (seq _ _ _ _ _ _ _ _ _ E2 i1) by (cbn [exec]; rewrite (bind_val _ _ _ _ _ (X1 i1)); reflexivity).
    rewrite (seq _ _ _ _ _ _ _ _ _ E3 i1) by (cbn [exec]; rewrite (bind_val _ _ _ _ _ X2'); reflexivity). reflexivity.
  - split; [unfold E3, E2; apply base_put; [cbn; auto 10|]; apply base_put; [cbn; auto 10|exact B1]|].
    split; [exists t1; unfold E3, E2; rewrite !var_put; reflexivity|]. split; [exists (KObj t2 c); split; [unfold E3; rewrite var_put; reflexivity|exact DI]|exact NE].
Qed.

(** One iteration. *)
Lemma cmc_body_runs : forall E a d f p, at_ E a d ->
  match cmc_step W a d with
  | Layers.Continue b e => exists E' q, blk E loop_body (mkIO f p) = Val (E', Next) (mkIO f q) /\ at_ E' b e
  | Stop => exists E' v, blk E loop_body (mkIO f p) = Val (E', Next) (mkIO f (p ++ [KText (chars title2); KPretty tpd v])) /\ var E' "next_layer" = Some KNone
  | Fail => exists e, blk E loop_body (mkIO f p) = Throw e (mkIO f p)
  | Out => True
  end.
Proof.
  intros E a d f p (B & (tn & VN) & (w & VW & DW) & NE). rewrite STEP.
  assert (ONE : forall c x y i, blk E [PIf c x y] i = bind (test W argv pem [] E c) (fun t => if t then blk E x else blk E y) i).
  { intros c x y i. cbn [block]. unfold bind at 1. rewrite exec_if. unfold bind. destruct (test W argv pem [] E c i) as [[|] i'| | | |]; try reflexivity.
    - destruct (blk E x i') as [[E' []] i2| | | |]; reflexivity.
    - destruct (blk E y i') as [[E' []] i2| | | |]; reflexivity. }
  let r := eval lazy in loop_body in change loop_body with r. rewrite ONE.
  rewrite (bind_val _ _ _ _ _ (name_test E "rfc5652" "id_ct_contentInfo" _ a tn (mkIO f p) B (or_introl eq_refl) VN)).
  destruct (oid_eqb a [1; 2; 840; 113549; 1; 9; 16; 1; 6]%N).
  { match goal with |- context [blk E ?l _] => change l with (layer_part "rfc5652" "ContentInfo" title1 ++ skipn 5 l) end. cbn [skipn].
    destruct (layer_runs E "rfc5652" "ContentInfo" title1 tci oci w d f p B VW DW RCI (or_introl eq_refl)) as [(v & s & EN & U & X)|[(U & e & X)|U]].
    2: { rewrite U. exists e. apply X. }
    2: { rewrite U. exact Logic.I. }
    rewrite U, X. clear U X. set (E1 := put (put E "layer" (KObj tci (Some v))) "rest" (KBytes [])).
    unfold proceed. destruct (component tci v "contentType") as [[[]|]|] eqn:C1; try exact Logic.I.
    destruct (component tci v "content") as [c|] eqn:C2; [|exact Logic.I].
    assert (V1 : var E1 "layer" = Some (KObj tci (Some v))) by (unfold E1; rewrite !var_put; reflexivity).
    assert (B1 : base E1) by (unfold E1; apply base_put; [cbn; auto|]; apply base_put; [cbn; auto|exact B]).
    destruct (component_typed _ _ _ _ C1) as [t1 T1]. destruct (component_typed _ _ _ _ C2) as [t2 T2].
    assert (X1 : forall i, eval W argv pem [] E1 (XSub (XName "layer") (XStr "contentType")) i = Val (KObj t1 (Some (VOid arcs))) i).
    { intro i. destruct (sub_one E1 "layer" tci v "contentType" _ i V1 C1) as (t' & T' & Q). cbn in T'. rewrite T1 in T'. injection T' as <-. exact Q. }
    assert (X2 : forall u i, eval W argv pem [] (put E1 "next_layer" u) (XSub (XName "layer") (XStr "content")) i = Val (KObj t2 c) i).
    { intros u i. assert (V2 : var (put E1 "next_layer" u) "layer" = Some (KObj tci (Some v))) by (rewrite var_put; exact V1).
      destruct (sub_one _ "layer" tci v "content" _ i V2 C2) as (t' & T' & Q). cbn in T'. rewrite T2 in T'. injection T' as <-. exact Q. }
    pose proof (oid_member _ _ _ _ _ _ _ ND1 EN C1) as NA.
    destruct c as [[]|]; try exact Logic.I.
    - destruct (continues E1 _ _ t1 t2 arcs _ (Some b) f (p ++ [KText (chars title1); KPretty tci v]) B1 X1 X2 (or_intror (ex_intro _ _ eq_refl)) NA) as (E' & Q & AT).
      exists E'. eexists. split; [exact Q|exact AT].
    - destruct (continues E1 _ _ t1 t2 arcs _ None f (p ++ [KText (chars title1); KPretty tci v]) B1 X1 X2 (ex_intro _ _ eq_refl) NA) as (E' & Q & AT).
      exists E'. eexists. split; [exact Q|exact AT]. }
  rewrite ONE.
  rewrite (bind_val _ _ _ _ _ (name_test E "rfc5652" "id_signedData" _ a tn (mkIO f p) B (or_intror (or_introl eq_refl)) VN)).
  destruct (oid_eqb a [1; 2; 840; 113549; 1; 7; 2]%N).
  { match goal with |- context [blk E ?l _] => change l with (layer_part "rfc5652" "SignedData" title1 ++ skipn 5 l) end. cbn [skipn].
    destruct (layer_runs E "rfc5652" "SignedData" title1 tsd osd w d f p B VW DW RSD (or_introl eq_refl)) as [(v & s & EN & U & X)|[(U & e & X)|U]].
    2: { rewrite U. exists e. apply X. }
    2: { rewrite U. exact Logic.I. }
    rewrite U, X. clear U X. set (E1 := put (put E "layer" (KObj tsd (Some v))) "rest" (KBytes [])).
    destruct (component tsd v "encapContentInfo") as [[ev|]|] eqn:C0; try exact Logic.I.
    unfold proceed. destruct (component te ev "eContentType") as [[[]|]|] eqn:C1; try exact Logic.I.
    destruct (component te ev "eContent") as [c|] eqn:C2; [|exact Logic.I].
    assert (V1 : var E1 "layer" = Some (KObj tsd (Some v))) by (unfold E1; rewrite !var_put; reflexivity).
    assert (B1 : base E1) by (unfold E1; apply base_put; [cbn; auto|]; apply base_put; [cbn; auto|exact B]).
    pose proof (member_component te ev "eContentType") as M1. rewrite C1 in M1. destruct M1 as (t1 & _ & M1).
    pose proof (member_component te ev "eContent") as M2. rewrite C2 in M2. destruct M2 as (t2 & _ & M2).
    assert (SUB : forall E0 nm o t' i, var E0 "layer" = Some (KObj tsd (Some v)) -> member te (Some ev) (plain (chars nm)) = Some (KObj t' o) ->
      eval W argv pem [] E0 (XSub (XSub (XName "layer") (XStr "encapContentInfo")) (XStr nm)) i = Val (KObj t' o) i).
    { intros E0 nm o t' i V0 M. destruct (sub_one E0 "layer" tsd v "encapContentInfo" _ i V0 C0) as (t0 & T0 & EV). cbn in T0. rewrite CTE in T0. injection T0 as <-.
      change (bind (eval W argv pem [] E0 (XSub (XName "layer") (XStr "encapContentInfo"))) (fun w => bind (ret (KText (chars nm))) (fun j => subscript w j)) i = Val (KObj t' o) i).
      rewrite (bind_val _ _ _ _ _ EV). unfold bind, ret. cbn [subscript]. rewrite M. reflexivity. }
    assert (X1 : forall i, eval W argv pem [] E1 (XSub (XSub (XName "layer") (XStr "encapContentInfo")) (XStr "eContentType")) i = Val (KObj t1 (Some (VOid arcs))) i).
    { intro i. apply SUB; [exact V1|exact M1]. }
    assert (X2 : forall u i, eval W argv pem [] (put E1 "next_layer" u) (XSub (XSub (XName "layer") (XStr "encapContentInfo")) (XStr "eContent")) i = Val (KObj t2 c) i).
    { intros u i. apply SUB; [rewrite var_put; exact V1|exact M2]. }
    assert (NA : arcs <> []).
    { destruct (component_slot _ _ _ _ C0) as (ss & m & fs & vs & Q1 & Q2 & SL). subst v.
      pose proof CTE as CT. pose proof ND2 as N2. rewrite Q1 in CT, N2, EN. pose proof (no_default_seq _ _ _ N2). subst ss.
      destruct (seq_part _ _ _ _ _ _ _ _ N2 EN SL) as (g & ine' & c' & FD & XX & _). rewrite (find_component_type _ _ _ _ _ FD) in CT. injection CT as CT.
      rewrite CT in XX. exact (oid_member _ _ _ _ _ _ _ ND3 XX C1). }
    destruct c as [[]|]; try exact Logic.I.
    - destruct (continues E1 _ _ t1 t2 arcs _ (Some b) f (p ++ [KText (chars title1); KPretty tsd v]) B1 X1 X2 (or_intror (ex_intro _ _ eq_refl)) NA) as (E' & Q & AT).
      exists E'. eexists. split; [exact Q|exact AT].
    - destruct (continues E1 _ _ t1 t2 arcs _ None f (p ++ [KText (chars title1); KPretty tsd v]) B1 X1 X2 (ex_intro _ _ eq_refl) NA) as (E' & Q & AT).
      exists E'. eexists. split; [exact Q|exact AT]. }
  rewrite ONE.
  rewrite (bind_val _ _ _ _ _ (name_test E "rfc6402" "id_cct_PKIData" _ a tn (mkIO f p) B (or_intror (or_intror (or_introl eq_refl))) VN)).
  destruct (oid_eqb a [1; 3; 6; 1; 5; 5; 7; 12; 2]%N).
  { match goal with |- context [blk E ?l _] => change l with (layer_part "rfc6402" "PKIData" title2 ++ skipn 5 l) end. cbn [skipn].
    destruct (layer_runs E "rfc6402" "PKIData" title2 tpd opd w d f p B VW DW RPD (or_intror (or_introl eq_refl))) as [(v & s & EN & U & X)|[(U & e & X)|U]].
    2: { rewrite U. exists e. apply X. }
    2: { rewrite U. exact Logic.I. }
    rewrite U, X. clear U X. eexists. exists v. split; [reflexivity|]. rewrite !var_put. reflexivity. }
  exists E, p. split; [reflexivity|]. split; [exact B|]. split; [eauto|]. split; [eauto|exact NE].
Qed.

(** The loop. *)
Lemma cmc_loop_runs : forall k E a d f p, at_ E a d ->
  let loop j := repeat_ j (fun E => test W argv pem [] E (XName "next_layer")) (fun E => blk E loop_body) E (mkIO f p) in
  match cmc_run W k a d with
  | None => loop k = More
  | Some Finished => exists E' q v, loop (S k) = Val (E', Next) (mkIO f (q ++ [KText (chars title2); KPretty tpd v]))
  | Some Raised => exists e q, loop k = Throw e (mkIO f q)
  | Some Layers.Unmodelled => True
  end.
Proof.
  induction k as [|k IH]; intros E a d f p A loop; [reflexivity|]. cbn [cmc_run]. pose proof (cmc_body_runs E a d f p A) as R.
  assert (T : test W argv pem [] E (XName "next_layer") (mkIO f p) = Val true (mkIO f p)).
  { destruct A as (_ & (t & V) & _ & NE). unfold test. cbn [eval]. unfold bind, of_some, name. rewrite V. destruct a; [contradiction|reflexivity]. }
  assert (ST : forall j, loop (S j) = bind (blk E loop_body) (fun q => let (E', g) := q in match g with
        | Next | Continue => repeat_ j (fun E => test W argv pem [] E (XName "next_layer")) (fun E => blk E loop_body) E'
        | Break => ret (E', Next) | Return v => ret (E', g) end) (mkIO f p)).
  { intro j. unfold loop. cbn [repeat_]. rewrite (bind_val _ _ _ _ _ T). reflexivity. }
  destruct (cmc_step W a d) as [b e| | |].
  - destruct R as (E' & q & X & A'). pose proof (IH E' b e f q A') as Y. cbv zeta in Y. destruct (cmc_run W k b e) as [[]|].
    + destruct Y as (E2 & q2 & v & Y). exists E2, q2, v. rewrite ST, (bind_val _ _ _ _ _ X). exact Y.
    + destruct Y as (e2 & q2 & Y). exists e2, q2. rewrite ST, (bind_val _ _ _ _ _ X). exact Y.
    + exact Logic.I.
    + rewrite ST, (bind_val _ _ _ _ _ X). exact Y.
  - destruct R as (E' & v & X & V). exists E', p, v. rewrite ST, (bind_val _ _ _ _ _ X). cbn [repeat_]. unfold bind at 1. unfold test. cbn [eval]. unfold bind, of_some, name. rewrite V. reflexivity.
  - destruct R as (e & X). exists e, p. rewrite ST. exact (bind_throw _ _ _ _ _ X).
  - exact Logic.I.
Qed.

(** From the reading of the substrate on; [k] iterations, or one more, are allowed. *)
Definition cmc_end (k : nat) (s : bytes) (run : nat -> how * list pv) : Prop :=
  match cmcdump W k s with
  | None => run k = (Running, [])
  | Some Finished => exists q v, run (S k) = (Completed, q ++ [KText (chars title2); KPretty tpd v])
  | Some Raised => exists e q, run k = (Failed e, q)
  | Some Layers.Unmodelled => True
  end.
Lemma cmc_runs : forall E f, base E ->
  (exists e f', Pem.readBase64FromFile f = (Base64.Err e, f') /\ observe (blk E (skipn 8 cmcdump_py) (mkIO f [])) = (Failed (Binascii e), [])) \/
  (exists s f', Pem.readBase64FromFile f = (Base64.Ok s, f') /\
    match decode tci s with
    | Ok (_, []) => exists E' , at_ E' [1; 2; 840; 113549; 1; 9; 16; 1; 6]%N (Some s) /\
        blk E (skipn 8 cmcdump_py) (mkIO f []) = bind (repeat_ n (fun E => test W argv pem [] E (XName "next_layer")) (fun E => blk E loop_body) E')
          (fun q => let (E', g) := q in match g with Next => ret (E', Next) | _ => ret (E', g) end) (mkIO f' [])
    | Unm => True
    | _ => exists e, observe (blk E (skipn 8 cmcdump_py) (mkIO f [])) = (Failed e, [])
    end).
Proof.
  intros E f B. pose proof (pem_base64 W argv n f []) as C. unfold cmcdump_py. cbn [skipn].
  assert (EV : eval W argv pem [] E (XCall (XAttr (XName "pem") "readBase64FromFile") [XAttr (XName "sys") "stdin"] []) (mkIO f [])
    = pem "readBase64FromFile" [KFile] [] (mkIO f [])).
  { destruct B as (HS & _ & _ & HM & _). cbn [eval]. unfold bind, of_some, name. rewrite HM, HS. reflexivity. }
  rewrite C in EV. clear C. destruct (Pem.readBase64FromFile f) as [[s|e] f']; cbn [base64_result] in EV.
  2: { left. exists e, f'. split; [reflexivity|]. erewrite seq_throw; [|cbn [exec]; exact (bind_throw _ _ _ _ _ EV)]. reflexivity. }
  right. exists s, f'. split; [reflexivity|].
  set (E1 := put E "substrate" (KBytes s)). set (i := mkIO f' []) in *.
  assert (S1 : exec W argv pem n [] E (PAssign ["substrate"] (XCall (XAttr (XName "pem") "readBase64FromFile") [XAttr (XName "sys") "stdin"] [])) (mkIO f []) = Val (E1, Next) i).
  { cbn [exec]. rewrite (bind_val _ _ _ _ _ EV). reflexivity. }
  rewrite (seq _ _ _ _ _ _ _ _ _ _ _ S1). clear S1 EV.
  assert (B1 : base E1) by (unfold E1; apply base_put; [cbn; auto 10|exact B]).
  assert (V1 : var E1 "substrate" = Some (KBytes s)) by (unfold E1; rewrite var_put; reflexivity).
  clearbody E1. clear E B.
  assert (VM : var E1 "rfc5652" = Some (KModule "rfc5652")) by apply B1.
  pose proof (decode_call E1 "substrate" "rfc5652" "ContentInfo" tci oci _ i B1 V1 (proj1 RCI) (proj2 RCI) VM eq_refl) as EV.
  unfold bind at 1 in EV. cbn [substrate_of] in EV. unfold ret at 1 in EV. cbv beta iota in EV.
  destruct (decode tci s) as [[v rest]| | |]; cbn [of_res] in EV; unfold bind, ret in EV; cbv beta iota in EV; cycle 1.
  1,2: exists PyAsn1Error; erewrite seq_throw; [|cbn [exec]; exact (bind_throw _ _ _ _ _ EV)]; reflexivity.
  { exact Logic.I. }
  set (E2 := put (put E1 "_" (KObj tci (Some v))) "rest" (KBytes rest)).
  assert (B2 : base E2) by (unfold E2; apply base_put; [cbn; auto 10|]; apply base_put; [cbn; auto 10|exact B1]).
  assert (V2 : var E2 "substrate" = Some (KBytes s)) by (unfold E2; rewrite !var_put; exact V1).
  assert (VR : var E2 "rest" = Some (KBytes rest)) by (unfold E2; rewrite !var_put; reflexivity).
  assert (S2 : exec W argv pem n [] E1 (PAssign ["_"; "rest"] (XCall (XAttr (XName "decoder") "decode") [XName "substrate"] [("asn1Spec", XCall (XAttr (XName "rfc5652") "ContentInfo") [] [])])) i = Val (E2, Next) i).
  { cbn [exec]. rewrite (bind_val _ _ _ _ _ EV). reflexivity. }
  rewrite (seq _ _ _ _ _ _ _ _ _ _ _ S2). clear S2 EV. clearbody E2. clear E1 B1 V1 VM.
  assert (S3 : exec W argv pem n [] E2 (PAssert (XNot (XName "rest"))) i = match rest with [] => Val (E2, Next) i | _ => Throw AssertionError i end).
  { sx. destruct rest; reflexivity. }
  destruct rest as [|r0 rest].
  2: { exists AssertionError. erewrite seq_throw by exact S3. reflexivity. }
  rewrite (seq _ _ _ _ _ _ _ _ _ _ _ S3). clear S3.
  destruct (NAMES "rfc5652" "id_ct_contentInfo" _ (or_introl eq_refl)) as (R & t' & LR & LK).
  set (u := KObj t' (Some (VOid [1; 2; 840; 113549; 1; 9; 16; 1; 6]%N))). set (E3 := put E2 "next_layer" u). set (E4 := put E3 "data" (KBytes s)).
  assert (S4 : exec W argv pem n [] E2 (PAssign ["next_layer"] (XAttr (XName "rfc5652") "id_ct_contentInfo")) i = Val (E3, Next) i).
  { cbn [exec eval]. unfold bind, of_some, name. assert (VM : var E2 "rfc5652" = Some (KModule "rfc5652")) by apply B2. rewrite VM. unfold ret. cbv beta iota.
    unfold attribute_of. strs. rewrite LR, LK. reflexivity. }
  rewrite (seq _ _ _ _ _ _ _ _ _ _ _ S4). clear S4.
  assert (S5 : exec W argv pem n [] E3 (PAssign ["data"] (XName "substrate")) i = Val (E4, Next) i).
  { cbn [exec eval]. unfold bind, of_some, name. assert (V : var E3 "substrate" = Some (KBytes s)) by (unfold E3; rewrite var_put; exact V2). rewrite V. reflexivity. }
  rewrite (seq _ _ _ _ _ _ _ _ _ _ _ S5). clear S5.
  exists E4. split.
  - split; [unfold E4, E3; apply base_put; [cbn; auto 10|]; apply base_put; [cbn; auto 10|exact B2]|].
    split; [exists t'; unfold E4, E3; rewrite !var_put; reflexivity|]. split; [|discriminate].
    exists (KBytes s). split; [unfold E4; rewrite var_put; reflexivity|left; reflexivity].
  - cbn [block]. unfold bind at 1. rewrite exec_while. reflexivity.
Qed.
End cmc.

Theorem cmc_source : forall h W a k f, session h = OK W -> loaded W "rfc5652" <> None -> loaded W "rfc6402" <> None ->
  match Pem.readBase64FromFile f with
  | (Base64.Err e, _) => observe (run_script W k cmcdump_py [a] f) = (Failed (Binascii e), [])
  | (Base64.Ok s, _) => exists tpd, type_of W "rfc6402" "PKIData" = Some tpd /\ cmc_end W tpd k s (fun n => observe (run_script W n cmcdump_py [a] f))
  end.
Proof.
  intros h W a k f SE L1 L2.
  destruct (cmc_step_is h W SE L1 L2) as (tci & tsd & te & tpd & T1 & T2 & T3 & CTE & ND1 & ND2 & ND3 & _ & STEP).
  destruct (class_ready h W "rfc5652" "ContentInfo" SE ltac:(cbn; auto 30) L1) as (R1 & t1 & o1 & S1 & Q1). rewrite T1 in Q1. injection Q1 as <-.
  destruct (class_ready h W "rfc5652" "SignedData" SE ltac:(cbn; auto 30) L1) as (R2 & t2 & o2 & S2 & Q2). rewrite T2 in Q2. injection Q2 as <-.
  destruct (class_ready h W "rfc6402" "PKIData" SE ltac:(cbn; auto 30) L2) as (R3 & t3 & o3 & S3 & Q3). rewrite T3 in Q3. injection Q3 as <-.
  assert (NM : forall m x b, In (m, x, b) cmc_names -> exists R t, loaded W m = Some R /\ lookup (m_ns R) x = Some (PInst t (Some (VOid b)))).
  { intros m x b I. apply (cmc_name h W m x b SE I). cbn [cmc_names In] in I. repeat destruct I as [I|I]; try contradiction I; injection I as <- <- <-; assumption. }
  assert (HEAD : forall n, exists E, base E /\ run_script W n cmcdump_py [a] f = block W [a] (pem_calls W [a] n) n [] E (skipn 8 cmcdump_py) (mkIO f [])).
  { intro n. eexists. split; [|unfold run_script, cmcdump_py; do 8 skip; reflexivity]. repeat split. }
  destruct (Pem.readBase64FromFile f) as [[s|e] f'] eqn:RB.
  2: { destruct (HEAD k) as (E & B & Q). destruct (cmc_runs W [a] k tci o1 (conj R1 S1) NM E f B) as [(e' & f2 & X & Y)|(s & f2 & X & _)]; rewrite RB in X; [|discriminate X]. injection X as <- _. rewrite Q. exact Y. }
  exists tpd. split; [exact T3|]. unfold cmc_end, cmcdump. rewrite T1.
  assert (OI : oid_of W "rfc5652" "id_ct_contentInfo" = Some [1; 2; 840; 113549; 1; 9; 16; 1; 6]%N).
  { destruct (NM "rfc5652" "id_ct_contentInfo" _ (or_introl eq_refl)) as (R & t & LR & LK). unfold oid_of, schema. rewrite LR, LK. reflexivity. }
  rewrite OI.
  assert (M : forall n, match decode tci s with
    | Ok (_, []) => exists E', at_ E' [1; 2; 840; 113549; 1; 9; 16; 1; 6]%N (Some s) /\
        run_script W n cmcdump_py [a] f = bind (repeat_ n (fun E => test W [a] (pem_calls W [a] n) [] E (XName "next_layer")) (fun E => block W [a] (pem_calls W [a] n) n [] E loop_body) E')
          (fun q => let (E', g) := q in match g with Next => ret (E', Next) | _ => ret (E', g) end) (mkIO f' [])
    | Unm => True
    | _ => exists e, observe (run_script W n cmcdump_py [a] f) = (Failed e, [])
    end).
  { intro n. destruct (HEAD n) as (E & B & Q). destruct (cmc_runs W [a] n tci o1 (conj R1 S1) NM E f B) as [(e' & f2 & X & Y)|(s2 & f2 & X & Y)]; rewrite RB in X; [discriminate X|]. injection X as <- <-. rewrite Q. exact Y. }
  destruct (decode tci s) as [[v [|r0 rest]]| | |].
  - cbv beta iota.
    pose proof (fun n j E (A : at_ E [1; 2; 840; 113549; 1; 9; 16; 1; 6]%N (Some s)) => cmc_loop_runs W [a] n tci tsd te tpd o1 o2 o3 (conj R1 S1) (conj R2 S2) (conj R3 S3) NM CTE ND1 ND2 ND3 STEP j E _ (Some s) f' [] A) as RUN. cbv zeta in RUN.
    assert (G : forall r, cmc_run W k [1; 2; 840; 113549; 1; 9; 16; 1; 6]%N (Some s) = r -> match r with
      | None => observe (run_script W k cmcdump_py [a] f) = (Running, [])
      | Some Finished => exists q v, observe (run_script W (S k) cmcdump_py [a] f) = (Completed, q ++ [KText (chars title2); KPretty tpd v])
      | Some Raised => exists e q, observe (run_script W k cmcdump_py [a] f) = (Failed e, q)
      | Some Layers.Unmodelled => True end); [|exact (G _ eq_refl)].
    intros [[]|] CR.
    + destruct (M (S k)) as (E' & A & Q). specialize (RUN (S k) k E' A). rewrite CR in RUN. destruct RUN as (E2 & q & w & RUN). exists q, w. rewrite Q. unfold bind. rewrite RUN. reflexivity.
    + destruct (M k) as (E' & A & Q). specialize (RUN k k E' A). rewrite CR in RUN. destruct RUN as (e & q & RUN). exists e, q. rewrite Q. unfold bind. rewrite RUN. reflexivity.
    + exact Logic.I.
    + destruct (M k) as (E' & A & Q). specialize (RUN k k E' A). rewrite CR in RUN. rewrite Q. unfold bind. rewrite RUN. reflexivity.
  - destruct (M k) as [e X]. exists e, []. exact X.
  - destruct (M k) as [e X]. exists e, []. exact X.
  - destruct (M k) as [e X]. exists e, []. exact X.
  - exact Logic.I.
Qed.
End codec.
