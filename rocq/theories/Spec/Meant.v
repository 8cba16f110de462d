(** The ASN.1 type that a schema object spells, whatever any RFC says. *)
From Coq Require Import List String ZArith NArith Bool Lia.
From Verif Require Import Asn1.Types Asn1.Der Asn1.EqbFacts Spec.X680 Spec.X690 Spec.Agree Spec.Own.
Import ListNotations.
Open Scope string_scope.
Open Scope list_scope.

(** Explicit tags, innermost first. *)
Definition outside (gs : list tag) (s : sty) : sty := fold_left (fun s g => ATag (tcls g) (tnum g) true s) gs s.
(** The innermost tag is the type's own, or was put in its place. *)
Definition tagged (n : N) (gs : list tag) (s : sty) : sty :=
  match gs with
  | g :: gs' => outside gs' (if tag_is (Universal, n) g then s else ATag (tcls g) (tnum g) false s)
  | [] => s
  end.
(** WITH COMPONENTS. *)
Definition row_of (names : list string) (c : cons) : list (nat * bool) :=
  match c with
  | CWith l => flat_map (fun q : string * bool => match index (fst q) names with Some i => [(i, snd q)] | None => [] end) l
  | _ => []
  end.
Definition rows_of (names : list string) (c : cons) : list scon :=
  if ctruthy c then
    match atoms c with
    | [CUnion l] => [WithC (map (row_of names) l)]
    | [CSize _ _] => [WithC (map (fun i => [(i, true)]) (seq 0 (List.length names)))]
    | _ => []
    end
  else [].
Definition prim_of (k : prim) (l : named) : option sprim :=
  match k with
  | KBool => Some PBool
  | KInt => Some (PInt l)
  | KEnum => Some (PEnum l)
  | KBits => Some (PBits l)
  | KOcts => Some POcts
  | KNull => Some PNull
  | KOid => Some POid
  | KStr s => Some (PStr s)
  | KAny => None
  end.
Definition need_of (q : presence) (d : option aval) : need :=
  match q, d with Req, _ => Mandatory | Def, Some v => Default v | _, _ => Optional end.

Fixpoint meant (t : asn1) : sty :=
  let fix all (gs : list field) : list sfield :=
    match gs with
    | [] => []
    | Fld n q t' d _ :: gs' => SF n (need_of q d) (meant t') :: all gs'
    end in
  match t with
  | TPrim k m =>
      match prim_of k (nvals m) with
      | Some p => tagged (universal p) (tags m) (bound (spec m) (built_in p) (APrim p))
      | None => outside (tags m) (bound (spec m) [] AAny)
      end
  | TSeq set m gs =>
      tagged (if set then 17 else 16)%N (tags m)
        (fold_right ACon ((if set then ASet else ASeq) (all gs)) (rows_of (fnames gs) (spec m)))
  | TOf set m o =>
      tagged (if set then 17 else 16)%N (tags m)
        (bound (spec m) [] ((if set then ASetOf else ASeqOf) match o with Some t' => meant t' | None => AAny end))
  | TChoice m gs => outside (tags m) (AChoice (all gs))
  end.

(** X.690, 8.8.1: the encoding of NULL is primitive; [98, 0] is not. *)
Lemma emit_length : forall t k c b, emit t k (Some c) = Some b -> (2 + List.length c <= List.length b)%nat.
Proof.
  intros [cl n] k c b H. unfold emit, tlv in H. cbn [fst snd] in H. destruct (length_octets (N.of_nat (List.length c))) as [l|] eqn:L; [|discriminate H]. injection H as <-.
  assert (1 <= List.length (identifier cl n k))%nat by (unfold identifier; destruct (n <=? 30)%N; cbn; lia).
  assert (1 <= List.length l)%nat.
  { unfold length_octets in L. destruct (_ <=? 127)%N; [injection L as <-; cbn; lia|]. destruct (_ <=? 126)%N; [injection L as <-; cbn; lia|discriminate L]. }
  rewrite !app_length. lia.
Qed.
Lemma null_primitive : forall s over b, der s over VNull = Some b -> (2 <= List.length b)%nat /\ b <> [98; 0]%N.
Proof.
  induction s as [p| |fs IH|fs IH|s IH|s IH|fs IH|c n e s IH|c s IH] using sty_ind2; intros over b H; cbn [der] in H; try discriminate H.
  - destruct p as [| | |[|]| | | |]; cbn [contents] in H; try discriminate H. split; [exact (Nat.le_trans _ _ _ (Nat.le_add_r 2 _) (emit_length _ _ _ _ H))|].
    intros ->. destruct (pick over (Universal, universal PNull)) as [cl n]. unfold emit, tlv in H. cbn in H. unfold identifier in H.
    destruct (n <=? 30)%N eqn:L; cbn [app] in H; injection H as H.
    + apply N.leb_le in L. destruct cl; cbn [class_bits] in H; lia.
    + destruct cl; discriminate H.
  - destruct e; [|exact (IH _ _ H)]. destruct (der s None VNull) as [b'|] eqn:D; [|discriminate H]. destruct (IH _ _ D) as [L _].
    pose proof (emit_length _ _ _ _ H) as L2. split; [lia|]. intros ->. cbn in L2. lia.
  - exact (IH _ _ H).
Qed.
