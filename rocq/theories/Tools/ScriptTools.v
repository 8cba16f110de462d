(** The dump tools, run from their source, are the programs of Tools/Programs.v and
    Tools/Layers.v. *)
From Coq Require Import List String Ascii ZArith NArith Bool Lia.
From Verif Require Pem.Text Pem.Base64 Pem.Pem Pem.PemFacts Tools.DumpLoop.
From Verif Require Import Py.Syntax Asn1.Types Py.Eval Asn1.Bytes Asn1.Der Load.Import Load.Computed Load.Session Load.Schemas Load.MoreImports
  Tools.Recode Tools.Layers Tools.Programs Tools.ScriptLang Gen.Scripts Tools.Script Tools.ScriptPem.
Import ListNotations.
Open Scope string_scope.
Open Scope list_scope.
Opaque T session.

(** ** The index of a block *)

Lemma run_idx : forall m ls st i b rest, (Pem.state st = Pem.stSpam \/ (0 <= Pem.idx st < Z.of_nat (List.length m))%Z) ->
  PemFacts.run m st ls = (Base64.Ok (i, Pem.Bytes b), rest) -> (0 <= i < Z.of_nat (List.length m))%Z.
Proof.
  intros m. induction ls as [|l ls IH]; intros [i0 cl st] i b rest H R; [discriminate R|]. cbn [PemFacts.run] in R.
  unfold Pem.body in R. cbn [Pem.state Pem.idx Pem.certLines] in *. set (t := Text.strip l) in *.
  assert (S : forall v, Pem.dict_get (Pem.startMarkers m) t = Some v -> (0 <= v < Z.of_nat (List.length m))%Z).
  { intros v D. pose proof (PemFacts.start_get m t) as G. rewrite D in G. destruct G as (k & -> & (e & N) & _).
    assert (k < List.length m)%nat by (apply nth_error_Some; rewrite N; discriminate). lia. }
  destruct st.
  - destruct (Pem.dict_get (Pem.startMarkers m) t) as [j|]; (eapply IH; [|exact R]).
    + right. cbn. exact (S j eq_refl).
    + left. reflexivity.
  - destruct H as [H|H]; [discriminate H|].
    destruct (match Pem.dict_get (Pem.stopMarkers m) t with Some j => Z.eqb j i0 | None => false end).
    + cbn [Pem.state Pem.idx Pem.certLines] in R. destruct (Pem.decode_lines cl); cbv beta iota in R; [|discriminate R]. injection R as <- _ _. exact H.
    + cbn [Pem.state] in R. eapply IH; [|exact R]. right. exact H.
  - destruct H as [H|H]; [discriminate H|]. cbv zeta beta iota in R. cbn [Pem.state Pem.idx Pem.certLines] in R. destruct (Pem.decode_lines cl); cbv beta iota in R; [|discriminate R]. injection R as <- _ _. exact H.
Qed.
Lemma block_idx : forall m f i s f', Pem.readPemBlocksFromFile m f = (Base64.Ok (i, s), f') -> Pem.truthy s = true ->
  (0 <= i < Z.of_nat (List.length m))%Z.
Proof.
  intros m f i s f' R T. destruct s as [|b]; [discriminate T|]. rewrite PemFacts.read_run in R.
  destruct (PemFacts.run m PemFacts.init (PemFacts.split_lines f)) as [r rest] eqn:Q. cbn [fst snd] in R. injection R as -> _.
  exact (run_idx m _ PemFacts.init i b rest (or_introl eq_refl) Q).
Qed.

Section codec.
Context {Cdc : codec}.

(** ** Variables *)

Lemma var_put : forall E x v y, var (put E x v) y = if String.eqb y x then Some v else var E y.
Proof.
  induction E as [|[z w] E IH]; intros x v y; cbn [put var]; [reflexivity|].
  destruct (String.eqb_spec x z) as [->|N]; cbn [var].
  - destruct (String.eqb_spec y z); reflexivity.
  - rewrite IH. destruct (String.eqb_spec y z) as [->|M]; [|reflexivity]. destruct (String.eqb_spec z x); [congruence|reflexivity].
Qed.

Section world.
Variable W : world.
Variable argv : list Text.text.
Variable n : nat.
Local Notation pem := (pem_calls W argv n).
Local Notation blk := (block W argv pem n []).

Lemma seq_unmod : forall E s l i i', exec W argv pem n [] E s i = Unmod i' -> blk E (s :: l) i = Unmod i'.
Proof. intros E s l i i' H. cbn [block]. unfold bind. rewrite H. reflexivity. Qed.

(** decode, cut, print, assert, count *)
Definition recode_part (c spec k : string) : list ps :=
  [PAssign [c; "rest"] (XCall (XAttr (XName "decoder") "decode") [XName "substrate"] [("asn1Spec", XName spec)]);
   PIf (XName "rest") [PAssign ["substrate"] (XUpto (XName "substrate") (XNeg (XCall (XName "len") [XName "rest"] [])))] [];
   PExpr (XCall (XName "print") [XCall (XAttr (XName c) "prettyPrint") [] []] []);
   PAssert (XCmp "==" (XCall (XAttr (XName "encoder") "encode") [XName c] []) (XName "substrate"));
   PAug k (XInt 1)].
Definition cut (b rest : bytes) : bytes := match rest with [] => b | _ => firstn (List.length b - List.length rest) b end.
Definition after_recode (E : vars) (c k : string) (t : asn1) (v : aval) (b rest : bytes) (cnt : Z) : vars :=
  let E1 := put (put E c (KObj t (Some v))) "rest" (KBytes rest) in
  put (match rest with [] => E1 | _ => put E1 "substrate" (KBytes (cut b rest)) end) k (KInt (cnt + 1)).

Local Ltac strs := cbn [String.eqb Ascii.eqb Bool.eqb existsb builtins orb var append].
Local Ltac sx := cbn [exec]; unfold test; cbn [eval]; unfold bind, of_some, name; rewrite ?var_put; strs;
  repeat match goal with H : var _ _ = _ |- _ => rewrite H end; unfold ret; cbv beta iota;
  unfold attribute_of; strs; unfold ret; cbv beta iota; unfold calls; cbv beta iota; unfold builtin, method; strs; cbv beta iota;
  unfold bind, of_some, ret; cbv beta iota.

Lemma recode_runs : forall c spec k E t o b cnt f p, In (c, spec, k) [("cert", "certType", "certCnt"); ("key", "asn1Spec", "cnt")] ->
  var E "decoder" = Some (KName "pyasn1.codec.der.decoder") -> var E "encoder" = Some (KName "pyasn1.codec.der.encoder") ->
  var E "len" = None -> var E "print" = None ->
  var E spec = Some (KObj t o) -> var E "substrate" = Some (KBytes b) -> var E k = Some (KInt cnt) ->
  blk E (recode_part c spec k) (mkIO f p) =
  match decode t b with
  | Ok (v, rest) =>
      let p' := p ++ [KPretty t v] in
      match encode t v with
      | Ok e => if list_eqb N.eqb e (cut b rest) then Val (after_recode E c k t v b rest cnt, Next) (mkIO f p') else Throw AssertionError (mkIO f p')
      | Unm => Unmod (mkIO f p')
      | _ => Throw PyAsn1Error (mkIO f p')
      end
  | Unm => Unmod (mkIO f p)
  | _ => Throw PyAsn1Error (mkIO f p)
  end.
Proof.
  intros c spec k E t o b cnt f p I HD HE HL HP HS HB HK.
  assert (KEY : forall v rest, decode t b = Ok (v, rest) ->
    let E1 := put (put E c (KObj t (Some v))) "rest" (KBytes rest) in
    let E2 := match rest with [] => E1 | _ => put E1 "substrate" (KBytes (cut b rest)) end in
    blk E (recode_part c spec k) (mkIO f p) = blk E2 (skipn 3 (recode_part c spec k)) (mkIO f (p ++ [KPretty t v])) /\
    var E2 c = Some (KObj t (Some v)) /\ var E2 "encoder" = Some (KName "pyasn1.codec.der.encoder") /\ var E2 "substrate" = Some (KBytes (cut b rest)) /\
    var E2 k = Some (KInt cnt)).
  { intros v rest D E1 E2. unfold recode_part. split.
    - rewrite (seq _ _ _ _ _ _ _ _ _ E1 (mkIO f p)).
      2: { destruct I as [I|[I|[]]]; injection I as <- <- <-; sx; cbn [substrate_of]; unfold ret; cbv beta iota; rewrite D; reflexivity. }
      rewrite (seq _ _ _ _ _ _ _ _ _ E2 (mkIO f p)).
      2: { subst E2. destruct I as [I|[I|[]]]; injection I as <- <- <-; subst E1; (destruct rest as [|r0 rest]; [sx; reflexivity|]); sx;
           cbn [truth nonempty]; unfold ret; cbv beta iota; sx; cbn [upto]; unfold cut;
           rewrite Z.opp_involutive, Nat2Z.id; destruct (Z.ltb_spec (- Z.of_nat (List.length (r0 :: rest))) 0); try reflexivity; cbn in *; lia. }
      cbn [skipn]. rewrite (seq _ _ _ _ _ _ _ _ _ E2 (mkIO f (p ++ [KPretty t v]))); [reflexivity|].
      subst E2 E1. destruct I as [I|[I|[]]]; injection I as <- <- <-; destruct rest as [|r0 rest]; sx; reflexivity.
    - subst E2 E1. destruct I as [I|[I|[]]]; injection I as <- <- <-; destruct rest as [|r0 rest]; rewrite ?var_put; strs; repeat split; assumption. }
  destruct (decode t b) as [[v rest]| | |] eqn:D.
  { destruct (KEY v rest eq_refl) as (Q & V1 & V2 & V3 & V4). clear KEY HD HE HS HB HK. cbv zeta. unfold after_recode. cbv zeta.
    rewrite Q. clear Q. set (E2 := match rest with [] => _ | _ :: _ => _ end) in *. clearbody E2.
    assert (A : forall r, encode t v = r -> exec W argv pem n [] E2 (nth 3 (recode_part c spec k) PBreak) (mkIO f (p ++ [KPretty t v])) =
      match r with
      | Ok e => if list_eqb N.eqb e (cut b rest) then Val (E2, Next) (mkIO f (p ++ [KPretty t v])) else Throw AssertionError (mkIO f (p ++ [KPretty t v]))
      | Unm => Unmod (mkIO f (p ++ [KPretty t v]))
      | _ => Throw PyAsn1Error (mkIO f (p ++ [KPretty t v]))
      end).
    { intros r R. destruct I as [I|[I|[]]]; injection I as <- <- <-; cbn [recode_part nth]; sx; rewrite R; destruct r; try reflexivity;
      cbn [of_res]; unfold ret; cbv beta iota; cbn [compare equals String.eqb Ascii.eqb Bool.eqb truth];
      destruct (list_eqb N.eqb _ (cut b rest)); reflexivity. }
    assert (B : forall s, exec W argv pem n [] E2 (nth 4 (recode_part c spec k) PBreak) s = Val (put E2 k (KInt (cnt + 1)), Next) s).
    { intro s. cbn [recode_part nth exec eval]. unfold bind, ret. cbv beta iota. rewrite V4. reflexivity. }
    specialize (A _ eq_refl). change (skipn 3 (recode_part c spec k)) with [nth 3 (recode_part c spec k) PBreak; nth 4 (recode_part c spec k) PBreak].
    destruct (encode t v) as [e| | |].
    - destruct (list_eqb N.eqb e (cut b rest)).
      + rewrite (seq _ _ _ _ _ _ _ _ _ _ _ A), (seq _ _ _ _ _ _ _ _ _ _ _ (B _)). reflexivity.
      + exact (seq_throw _ _ _ _ _ _ _ _ _ _ _ A).
    - exact (seq_throw _ _ _ _ _ _ _ _ _ _ _ A).
    - exact (seq_throw _ _ _ _ _ _ _ _ _ _ _ A).
    - exact (seq_unmod _ _ _ _ _ A). }
  all: clear KEY; unfold recode_part; first [apply seq_throw|apply seq_unmod];
    destruct I as [I|[I|[]]]; injection I as <- <- <-; sx; cbn [substrate_of]; unfold ret; cbv beta iota; rewrite D; reflexivity.
Qed.

(** ** The loops *)

Definition marker_args (p : pem_tool) : list px := map (fun q => XTuple [XStr (fst (fst q)); XStr (snd (fst q))]) (pt_blocks p).
Definition pem_body (p : pem_tool) (choose : list ps) (c spec k : string) : list ps :=
  PAssign ["idx"; "substrate"] (XCall (XAttr (XName "pem") "readPemBlocksFromFile") (XAttr (XName "sys") "stdin" :: marker_args p) [])
  :: PIf (XNot (XName "substrate")) [PBreak] [] :: choose ++ recode_part c spec k.

(** What the tool prints of a block. *)
Definition shown (p : pem_tool) (q : Z * bytes) : pv :=
  match spec_for W p (Z.to_nat (fst q)) with
  | Some t => match decode t (snd q) with Ok (v, _) => KPretty t v | _ => KNone end
  | None => KNone
  end.

(** What is seen of a run: how it ended and what it printed. *)
Inductive how := Completed | Failed (e : pyexn) | Exited (z : Z) | Unmodelled | Running.
Definition observe (r : out (vars * sig)) : how * list pv :=
  match r with
  | Val _ s => (Completed, printed s)
  | Throw e s => (Failed e, printed s)
  | Quit z s => (Exited z, printed s)
  | Unmod s => (Unmodelled, printed s)
  | More => (Running, [])
  end.
(** A run that goes as [d] says (Tools/DumpLoop.v). *)
Definition reported (p : pem_tool) (final : string) (d : list (Z * bytes) * DumpLoop.outcome) (r : how * list pv) : Prop :=
  let lines := map (shown p) (fst d) in
  match snd d with
  | DumpLoop.Finished => r = (Completed, lines ++ [KFormat (chars final) (KInt (Z.of_nat (List.length (fst d))))])
  | DumpLoop.PemError e => r = (Failed (Binascii e), lines)
  | DumpLoop.HandlerError => exists last, (List.length last <= 1)%nat /\ (r = (Unmodelled, lines ++ last) \/ exists e, r = (Failed e, lines ++ last))
  end.

Section loop.
Variable p : pem_tool.
Variable choose : list ps.
Variables c spec k : string.
Variable assigned : list string.
Variable E0 : vars.
Hypothesis NAMES : In (c, spec, k) [("cert", "certType", "certCnt"); ("key", "asn1Spec", "cnt")].
Hypothesis ASSIGNED : forall x, In x ["idx"; "substrate"; c; "rest"; k] -> In x assigned.
Hypothesis FREE : forall x, In x ["sys"; "decoder"; "encoder"; "pem"; "len"; "print"] -> ~ In x assigned.
Hypothesis E0_sys : var E0 "sys" = Some (KName "sys").
Hypothesis E0_decoder : var E0 "decoder" = Some (KName "pyasn1.codec.der.decoder").
Hypothesis E0_encoder : var E0 "encoder" = Some (KName "pyasn1.codec.der.encoder").
Hypothesis E0_pem : var E0 "pem" = Some (KModule "pem").
Hypothesis E0_len : var E0 "len" = None.
Hypothesis E0_print : var E0 "print" = None.

(** Between iterations: only these variables have changed. *)
Definition between (E : vars) (cnt : Z) : Prop := (forall x, ~ In x assigned -> var E x = var E0 x) /\ var E k = Some (KInt cnt).
Hypothesis CHOOSE : forall E i cnt l s, between E cnt -> var E "idx" = Some (KInt i) -> (0 <= i < Z.of_nat (List.length (pt_blocks p)))%Z ->
  exists t o E', spec_for W p (Z.to_nat i) = Some t /\ blk E (choose ++ l) s = blk E' l s /\ between E' cnt /\
    var E' spec = Some (KObj t o) /\ var E' "substrate" = var E "substrate".

Lemma put_between : forall E cnt x v, between E cnt -> In x assigned -> x <> k -> between (put E x v) cnt.
Proof using Type.
  intros E cnt x v [B K] I N. split.
  - intros y F. rewrite var_put. destruct (String.eqb_spec y x) as [Q|_]; [exfalso; apply F; rewrite Q; exact I|exact (B y F)].
  - rewrite var_put. destruct (String.eqb_spec k x) as [Q|_]; [exfalso; exact (N (eq_sym Q))|exact K].
Qed.
Lemma marker_values : forall E s, (fix all (l : list px) : M (list pv) := match l with [] => ret [] | e :: l' => let* v := eval W argv pem [] E e in let* vs := all l' in ret (v :: vs) end) (marker_args p) s
  = Val (map pair_of (pt_markers p)) s.
Proof.
  clear CHOOSE. intro E. unfold marker_args, pt_markers. induction (pt_blocks p) as [|[[a b] q] l IH]; intro s; [reflexivity|].
  cbn [map fst snd]. rewrite (bind_val _ _ _ (pair_of (chars a, chars b)) s) by reflexivity. rewrite (bind_val _ _ _ _ _ (IH s)). reflexivity.
Qed.
Lemma k_fresh : k <> "idx" /\ k <> "substrate" /\ k <> c /\ k <> "rest".
Proof. destruct NAMES as [I|[I|[]]]; injection I as <- <- <-; repeat split; discriminate. Qed.

(** One iteration. *)
Lemma body_runs : forall E cnt f o, between E cnt -> (List.length f < n)%nat ->
  match Pem.readPemBlocksFromFile (pt_markers p) f with
  | (Base64.Err e, f') => blk E (pem_body p choose c spec k) (mkIO f o) = Throw (Binascii e) (mkIO f' o)
  | (Base64.Ok (i, s), f') =>
      if Pem.truthy s then
        if body W p i (Pem.octets s)
        then exists E', blk E (pem_body p choose c spec k) (mkIO f o) = Val (E', Next) (mkIO f' (o ++ [shown p (i, Pem.octets s)])) /\ between E' (cnt + 1)
        else exists last, (List.length last <= 1)%nat /\
               (blk E (pem_body p choose c spec k) (mkIO f o) = Unmod (mkIO f' (o ++ last)) \/
                exists e, blk E (pem_body p choose c spec k) (mkIO f o) = Throw e (mkIO f' (o ++ last)))
      else exists E', blk E (pem_body p choose c spec k) (mkIO f o) = Val (E', Break) (mkIO f' o) /\ between E' cnt
  end.
Proof.
  intros E cnt f o BT L. pose proof (block_idx (pt_markers p) f) as IX. pose proof (pem_blocks W argv n (pt_markers p) f o L) as C.
  destruct BT as [B K]. pose proof k_fresh as (K1 & K2 & K3 & K4).
  assert (F : forall x, In x ["sys"; "decoder"; "encoder"; "pem"; "len"; "print"] -> var E x = var E0 x) by (intros x I; exact (B x (FREE x I))).
  assert (Hsys : var E "sys" = Some (KName "sys")) by (rewrite <- E0_sys; apply F; cbn; tauto).
  assert (Hpem : var E "pem" = Some (KModule "pem")) by (rewrite <- E0_pem; apply F; cbn; tauto).
  assert (S0 : forall r, pem "readPemBlocksFromFile" (KFile :: map pair_of (pt_markers p)) [] (mkIO f o) = r ->
    eval W argv pem [] E (XCall (XAttr (XName "pem") "readPemBlocksFromFile") (XAttr (XName "sys") "stdin" :: marker_args p) []) (mkIO f o) = r).
  { intros r Q. cbn [eval]. unfold name at 1. rewrite Hpem. rewrite (bind_val _ _ _ (KPem "readPemBlocksFromFile") (mkIO f o)) by reflexivity.
    rewrite (bind_val _ _ _ (KFile :: map pair_of (pt_markers p)) (mkIO f o)).
    - erewrite bind_val; [|reflexivity]. exact Q.
    - unfold name at 1. rewrite Hsys. rewrite (bind_val _ _ _ KFile (mkIO f o)) by reflexivity. rewrite (bind_val _ _ _ _ _ (marker_values E (mkIO f o))). reflexivity. }
  specialize (S0 _ C). destruct (Pem.readPemBlocksFromFile (pt_markers p) f) as [[[i s]|e] f'].
  2: { unfold pem_body. apply seq_throw. cbn [exec]. exact (bind_throw _ _ _ _ _ S0). }
  specialize (IX i s f' eq_refl). set (E1 := put (put E "idx" (KInt i)) "substrate" (of_substrate s)).
  assert (ST : blk E (pem_body p choose c spec k) (mkIO f o) = blk E1 (skipn 1 (pem_body p choose c spec k)) (mkIO f' o)).
  { unfold pem_body at 1. erewrite seq; [reflexivity|]. cbn [exec]. rewrite (bind_val _ _ _ _ _ S0). reflexivity. }
  rewrite ST. clear ST.
  assert (B1 : between E1 cnt).
  { apply put_between; [apply put_between; [split; assumption| |congruence]| |congruence]; apply ASSIGNED; cbn; tauto. }
  assert (VS : var E1 "substrate" = Some (of_substrate s)) by (unfold E1; rewrite var_put; reflexivity).
  assert (VI : var E1 "idx" = Some (KInt i)) by (unfold E1; rewrite !var_put; reflexivity).
  clearbody E1. unfold pem_body. cbn [skipn].
  assert (N1 : exec W argv pem n [] E1 (PIf (XNot (XName "substrate")) [PBreak] []) (mkIO f' o) = Val (E1, if Pem.truthy s then Next else Break) (mkIO f' o)).
  { sx. destruct s as [|[|x b]]; reflexivity. }
  destruct (Pem.truthy s) eqn:TR.
  2: { exists E1. split; [|exact B1]. rewrite (seq_end _ _ _ _ _ _ _ _ _ _ _ _ N1); [reflexivity|discriminate]. }
  rewrite (seq _ _ _ _ _ _ _ _ _ _ _ N1). specialize (IX eq_refl). unfold pt_markers in IX. rewrite map_length in IX.
  destruct (CHOOSE E1 i cnt (recode_part c spec k) (mkIO f' o) B1 VI IX) as (t & ob & E2 & SF & Q & B2 & V1 & V2). rewrite Q. clear Q.
  destruct s as [|b]; [discriminate TR|]. cbn [Pem.octets of_substrate] in *. rewrite VS in V2.
  assert (F2 : forall x, In x ["sys"; "decoder"; "encoder"; "pem"; "len"; "print"] -> var E2 x = var E0 x) by (intros x I; exact (proj1 B2 x (FREE x I))).
  rewrite (recode_runs c spec k E2 t ob b cnt f' o NAMES); [|rewrite F2 by (cbn; tauto); assumption..|exact V1|exact V2|exact (proj2 B2)].
  assert (BD : body W p i b = match decode t b with Ok (v, rest) => match encode t v with Ok e => list_eqb N.eqb e (cut b rest) | _ => false end | _ => false end).
  { unfold body, recode. rewrite SF. destruct (decode t b) as [[v rest]| | |]; [|reflexivity..]. cbn [rbind]. destruct (encode t v) as [e| | |]; [|reflexivity..]. cbn [rbind].
    unfold cut. match goal with |- (if ?q then _ else _) = _ => destruct q eqn:Q end; reflexivity. }
  rewrite BD. clear BD. unfold shown. cbn [fst snd]. rewrite SF. destruct (decode t b) as [[v rest]| | |]; cbv zeta.
  2-4: exists []; rewrite app_nil_r; split; [cbn; lia|eauto].
  destruct (encode t v) as [e| | |].
  2-4: exists [KPretty t v]; split; [cbn; lia|eauto].
  destruct (list_eqb N.eqb e (cut b rest)).
  - eexists. split; [reflexivity|]. unfold after_recode. cbv zeta. split.
    + intros y Y. rewrite var_put. destruct (String.eqb_spec y k) as [->|_]; [exfalso; apply Y, ASSIGNED; cbn; tauto|].
      assert (Y1 : y <> c) by (intros ->; apply Y, ASSIGNED; cbn; tauto).
      assert (Y2 : y <> "rest") by (intros ->; apply Y, ASSIGNED; cbn; tauto).
      assert (Y3 : y <> "substrate") by (intros ->; apply Y, ASSIGNED; cbn; tauto).
      destruct rest; rewrite !var_put; repeat match goal with |- context [String.eqb y ?z] => destruct (String.eqb_spec y z); [contradiction|] end; exact (proj1 B2 y Y).
    + rewrite var_put, String.eqb_refl. reflexivity.
  - exists [KPretty t v]. split; [cbn; lia|eauto].
Qed.

(** The whole loop, from a state with [cnt] blocks counted. *)
Definition ends (cnt : Z) (o : list pv) (d : list (Z * bytes) * DumpLoop.outcome) (r : out (vars * sig)) : Prop :=
  let o' := o ++ map (shown p) (fst d) in
  match snd d with
  | DumpLoop.Finished => exists E' f', r = Val (E', Next) (mkIO f' o') /\ between E' (cnt + Z.of_nat (List.length (fst d)))
  | DumpLoop.PemError e => exists f', r = Throw (Binascii e) (mkIO f' o')
  | DumpLoop.HandlerError => exists f' last, (List.length last <= 1)%nat /\ (r = Unmod (mkIO f' (o' ++ last)) \/ exists e, r = Throw e (mkIO f' (o' ++ last)))
  end.
Lemma loop_ends : forall cond, (forall E s, test W argv pem [] E cond s = Val true s) ->
  forall q E cnt f o d, between E cnt -> (List.length f < n)%nat -> DumpLoop.dump_go q (body W p) (pt_markers p) f = Some d ->
  ends cnt o d (repeat_ q (fun E => test W argv pem [] E cond) (fun E => blk E (pem_body p choose c spec k)) E (mkIO f o)).
Proof.
  intros cond CT. induction q as [|q IH]; intros E cnt f o d B L D; [discriminate D|]. cbn [DumpLoop.dump_go] in D. cbn [repeat_].
  rewrite (bind_val _ _ _ true (mkIO f o)) by apply CT. cbv iota.
  pose proof (body_runs E cnt f o B L) as R. pose proof (fun i s f' => DumpLoop.truthy_shorter (pt_markers p) f i s f') as SH.
  destruct (Pem.readPemBlocksFromFile (pt_markers p) f) as [[[i s]|e] f'].
  2: { injection D as <-. unfold ends. cbn [fst snd map]. rewrite app_nil_r. exists f'. exact (bind_throw _ _ _ _ _ R). }
  specialize (SH i s f' eq_refl). destruct (Pem.truthy s).
  - specialize (SH eq_refl). destruct (body W p i (Pem.octets s)).
    + destruct R as (E' & R & B'). rewrite (bind_val _ _ _ _ _ R). cbv beta iota.
      destruct (DumpLoop.dump_go q (body W p) (pt_markers p) f') as [[done oc]|] eqn:Q; [|discriminate D]. injection D as <-.
      specialize (IH E' (cnt + 1)%Z f' (o ++ [shown p (i, Pem.octets s)]) _ B' ltac:(lia) Q). revert IH. unfold ends. cbn [fst snd map List.length].
      assert (A : (o ++ [shown p (i, Pem.octets s)]) ++ map (shown p) done = o ++ shown p (i, Pem.octets s) :: map (shown p) done) by (rewrite <- app_assoc; reflexivity).
      rewrite A. destruct oc; intro IH; [|exact IH..]. destruct IH as (E2 & f2 & R2 & B2). exists E2, f2. split; [exact R2|].
      assert (Q2 : (cnt + 1 + Z.of_nat (List.length done) = cnt + Z.of_nat (S (List.length done)))%Z) by lia. exact (eq_ind _ (between E2) B2 _ Q2).
    + injection D as <-. destruct R as (last & LL & R). unfold ends. cbn [fst snd map]. rewrite app_nil_r. exists f', last. split; [exact LL|].
      destruct R as [R|[e R]]; [left; unfold bind; rewrite R; reflexivity|right; exists e; exact (bind_throw _ _ _ _ _ R)].
  - injection D as <-. destruct R as (E' & R & B'). unfold ends. cbn [fst snd map]. rewrite app_nil_r. exists E', f'.
    rewrite (bind_val _ _ _ _ _ R). split; [reflexivity|]. cbn [List.length]. rewrite Z.add_0_r. exact B'.
Qed.

(** The loop and the line after it. *)
Lemma tail_runs : forall cond final f d, (forall E s, test W argv pem [] E cond s = Val true s) -> (List.length f < n)%nat -> between E0 0 ->
  DumpLoop.dump (body W p) (pt_markers p) f = Some d ->
  reported p final d (observe (blk E0 [PWhile cond (pem_body p choose c spec k); PExpr (XCall (XName "print") [XMod (XStr final) (XName k)] [])] (mkIO f []))).
Proof.
  intros cond final f [done oc] CT L B D. apply (DumpLoop.dump_fuel_mono _ _ _ _ _ n) in D; [|exact L].
  pose proof (loop_ends cond CT n E0 0 f [] _ B L D) as R. unfold ends in R. cbn [fst snd app] in R.
  rewrite <- exec_while in R. unfold reported. destruct oc.
  - destruct R as (E' & f' & R & B'). rewrite (seq _ _ _ _ _ _ _ _ _ _ _ R). destruct B' as [B1 B2]. rewrite Z.add_0_l in B2.
    assert (P : var E' "print" = None) by (rewrite <- E0_print; apply B1, FREE; cbn; tauto).
    rewrite (seq _ _ _ _ _ _ _ _ _ E' (mkIO f' (map (shown p) done ++ [KFormat (chars final) (KInt (Z.of_nat (List.length done)))]))); [reflexivity|].
    sx. reflexivity.
  - destruct R as (f' & R). rewrite (seq_throw _ _ _ _ _ _ _ _ _ _ _ R). reflexivity.
  - destruct R as (f' & last & LL & [R|[e R]]).
    + rewrite (seq_unmod _ _ _ _ _ R). exists last. split; [exact LL|]. left. reflexivity.
    + rewrite (seq_throw _ _ _ _ _ _ _ _ _ _ _ R). exists last. split; [exact LL|]. right. exists e. reflexivity.
Qed.
End loop.

(** ** Classes *)

Definition ready (m x : string) : Prop := exists R k, loaded W m = Some R /\ lookup (m_ns R) x = Some (PClass k).
Lemma new_object : forall E m x t o s, ready m x -> schema W m x = Some (t, o) -> String.eqb m "pem" = false -> var E m = Some (KModule m) ->
  eval W argv pem [] E (XCall (XAttr (XName m) x) [] []) s = Val (KObj t o) s.
Proof.
  intros E m x t o s (R & k & L & K) S P V. cbn [eval]. unfold name. rewrite V. unfold bind at 1 2. unfold of_some at 1, ret at 1. cbv beta iota.
  unfold attribute_of. rewrite P, L, K. unfold ret at 1. cbv beta iota. rewrite (bind_val _ _ _ [] s) by reflexivity. rewrite (bind_val _ _ _ [] s) by reflexivity.
  unfold calls. rewrite S. reflexivity.
Qed.
End world.

Definition tool_classes : list (string * string) :=
  [("rfc2459", "Certificate"); ("rfc2459", "CertificateList"); ("rfc2459", "DSAPrivateKey"); ("rfc5280", "Certificate"); ("rfc2314", "CertificationRequest");
   ("rfc2437", "RSAPrivateKey"); ("rfc5208", "PrivateKeyInfo"); ("rfc5208", "EncryptedPrivateKeyInfo"); ("rfc2560", "OCSPRequest"); ("rfc2560", "OCSPResponse");
   ("rfc4210", "PKIMessage"); ("rfc2511", "CertReqMessages"); ("rfc2315", "ContentInfo"); ("rfc2315", "Data"); ("rfc2315", "SignedData");
   ("rfc2315", "EnvelopedData"); ("rfc2315", "SignedAndEnvelopedData"); ("rfc2315", "DigestedData"); ("rfc2315", "EncryptedData");
   ("rfc5652", "ContentInfo"); ("rfc5652", "SignedData"); ("rfc6402", "PKIData")].
Definition tool_modules : list string :=
  ["rfc2459"; "rfc5280"; "rfc2314"; "rfc2437"; "rfc5208"; "rfc2560"; "rfc4210"; "rfc2511"; "rfc2315"; "rfc5652"; "rfc6402"].
Lemma classes_computed : match session tool_modules with
  | OK W => forallb (fun q => match loaded W (fst q) with
                              | Some R => match lookup (m_ns R) (snd q) with Some (PClass _) => true | _ => false end
                              | None => false end) tool_classes
         && forallb (fun q => match schema W (fst q) (snd q) with Some _ => true | None => false end) tool_classes
  | _ => false end = true.
Proof. vm_cast_no_check (eq_refl true). Qed.
Lemma class_ready : forall h W m x, session h = OK W -> In (m, x) tool_classes -> loaded W m <> None ->
  ready W m x /\ exists t o, schema W m x = Some (t, o) /\ type_of W m x = Some t.
Proof.
  intros h W m x S I L. pose proof classes_computed as K. destruct (session tool_modules) as [W0|e|e] eqn:S0; [|discriminate K..].
  apply andb_true_iff in K. destruct K as [K1 K2].
  pose proof (proj1 (forallb_forall _ _) K1 _ I) as A. pose proof (proj1 (forallb_forall _ _) K2 _ I) as B. clear K1 K2. cbn [fst snd] in A, B.
  destruct (loaded W0 m) as [R0|] eqn:L0; [|discriminate A].
  assert (N0 : loaded W0 m <> None) by (rewrite L0; discriminate).
  pose proof (attribute_independent _ _ _ _ m x S S0 L N0) as AT. unfold attribute in AT. rewrite L0 in AT. split.
  - unfold ready. destruct (loaded W m) as [R|]; [|congruence]. destruct (lookup (m_ns R0) x) as [p|]; [|discriminate A].
    destruct p; try discriminate A. eauto.
  - rewrite <- (schema_same _ _ _ _ m x S S0 L N0) in B. destruct (schema W m x) as [[t o]|] eqn:Q; [|discriminate B].
    exists t, o. split; [reflexivity|]. unfold type_of. rewrite Q. reflexivity.
Qed.
End codec.
