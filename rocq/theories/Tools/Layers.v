(** tools/cmcdump.py:20-60: the loop that unwraps ContentInfo and SignedData layers down to
    PKIData. *)
From Coq Require Import List String ZArith NArith Bool Lia.
From Verif Require Import Py.Syntax Asn1.Types Py.Eval Asn1.EqbFacts Asn1.Bytes Asn1.Der Asn1.Wf Asn1.RoundTrip Asn1.RoundTrip2
  Asn1.Open Asn1.Total Load.Import Load.Computed Load.Schemas Load.Checked Load.CheckedFacts Tools.Recode.
Import ListNotations.
Open Scope string_scope.
Open Scope N_scope.
Open Scope list_scope.
Opaque T session.

Section codec.
Context {Cdc : codec}.

(** ** Python expressions of the tool *)

Definition oid_eqb : list N -> list N -> bool := list_eqb N.eqb.
(** layer[name]: [None] if [name] is no component (KeyError) or the layer is no SEQUENCE;
    [Some None] an absent optional component (a schema object). *)
Definition component (t : asn1) (v : aval) (n : string) : option (option aval) :=
  match t, v with
  | TSeq _ _ fs, VSeq vs => if existsb (String.eqb n) (fnames fs) then Some (slot_of fs vs n) else None
  | _, _ => None
  end.
Definition component_type (t : asn1) (n : string) : option asn1 :=
  match t with
  | TSeq _ _ fs => match find (fun f => String.eqb (fname f) n) fs with Some f => Some (ftype f) | None => None end
  | _ => None
  end.
(** rfcXXXX.id_...: an OID constant of a module. *)
Definition oid_of (W : world) (m x : string) : option (list N) :=
  match schema W m x with Some (_, Some (VOid a)) => Some a | _ => None end.
Definition type_of (W : world) (m x : string) : option asn1 := option_map fst (schema W m x).

(** ** One iteration *)

(** [next_layer] and [data] after the iteration; [Stop]: next_layer = None; [Fail]: an
    exception (decoding, a failed assertion); [Out]: outside the model. *)
Inductive step := Continue (next : list N) (data : option bytes) | Stop | Fail | Out.

(** layer, rest = decode(data, asn1Spec=t); assert encode(layer) == data; assert not rest.
    Decoding [None] (the schema object of an absent eContent) raises. *)
Definition unwrap (t : asn1) (data : option bytes) (k : aval -> step) : step :=
  match data with
  | None => Fail
  | Some s =>
      match decode t s with
      | Ok (v, rest) =>
          match encode t v with
          | Ok e => if list_eqb N.eqb e s then match rest with [] => k v | _ => Fail end else Fail
          | Unm => Out
          | _ => Fail
          end
      | Unm => Out
      | _ => Fail
      end
  end.
(** next_layer = layer[n]; data = layer[c] *)
Definition proceed (t : asn1) (n c : string) (v : aval) : step :=
  match component t v n, component t v c with
  | Some (Some (VOid a)), Some (Some (VOcts b)) => Continue a (Some b)
  | Some (Some (VOid a)), Some None => Continue a None
  | _, _ => Out
  end.

(** The body of the while loop (tools/cmcdump.py:30-60): the three branches, and nothing
    otherwise. *)
Definition cmc_step (W : world) (next : list N) (data : option bytes) : step :=
  match oid_of W "rfc5652" "id_ct_contentInfo", oid_of W "rfc5652" "id_signedData", oid_of W "rfc6402" "id_cct_PKIData",
        type_of W "rfc5652" "ContentInfo", type_of W "rfc5652" "SignedData", type_of W "rfc6402" "PKIData" with
  | Some ci, Some sd, Some pd, Some tci, Some tsd, Some tpd =>
      if oid_eqb next ci then unwrap tci data (proceed tci "contentType" "content")
      else if oid_eqb next sd then
        unwrap tsd data (fun v =>
          match component tsd v "encapContentInfo", component_type tsd "encapContentInfo" with
          | Some (Some e), Some te => proceed te "eContentType" "eContent" e
          | _, _ => Out
          end)
      else if oid_eqb next pd then unwrap tpd data (fun _ => Stop)
      else Continue next data
  | _, _, _, _, _, _ => Out
  end.

(** ** The loop *)

Inductive ending := Finished | Raised | Unmodelled.
(** [None]: still running after [n] iterations. *)
Fixpoint cmc_run (W : world) (n : nat) (next : list N) (data : option bytes) : option ending :=
  match n with
  | O => None
  | S n' => match cmc_step W next data with
            | Continue a d => cmc_run W n' a d
            | Stop => Some Finished
            | Fail => Some Raised
            | Out => Some Unmodelled
            end
  end.
(** tools/cmcdump.py:22-29: the substrate must be one ContentInfo; then the loop. *)
Definition cmcdump (W : world) (n : nat) (s : bytes) : option ending :=
  match type_of W "rfc5652" "ContentInfo", oid_of W "rfc5652" "id_ct_contentInfo" with
  | Some t, Some ci =>
      match decode t s with
      | Ok (_, []) => cmc_run W n ci (Some s)
      | Unm => Some Unmodelled
      | _ => Some Raised
      end
  | _, _ => Some Unmodelled
  end.

(** States the loop passes through. *)
Inductive reaches (W : world) : list N -> option bytes -> list N -> option bytes -> Prop :=
| here a d : reaches W a d a d
| after a d b e c f : cmc_step W a d = Continue b e -> reaches W b e c f -> reaches W a d c f.

(** The content types it knows: id-ct-contentInfo, id-signedData, id-cct-PKIData. *)
Definition cmc_known : list (list N) :=
  [[1; 2; 840; 113549; 1; 9; 16; 1; 6]; [1; 2; 840; 113549; 1; 7; 2]; [1; 3; 6; 1; 5; 5; 7; 12; 2]].

(** ** Facts *)

Lemma oid_eqb_eq : forall a b, oid_eqb a b = true -> a = b. Proof. exact octs_eqb_eq. Qed.
Lemma oid_eqb_refl : forall a, oid_eqb a a = true. Proof. exact octs_eqb_refl. Qed.

Lemma slot_nth : forall fs vs n x, slot_of fs vs n = Some x ->
  exists i f, nth_error fs i = Some f /\ nth_error vs i = Some (Some x) /\ find (fun f => String.eqb (fname f) n) fs = Some f.
Proof.
  induction fs as [|f fs IH]; intros [|o vs] n x H; try discriminate. cbn [slot_of find] in *.
  destruct (String.eqb (fname f) n).
  - exists O, f. subst o. repeat split.
  - destruct (IH _ _ _ H) as (i & g & A & B & C). exists (S i), g. repeat split; assumption.
Qed.

Definition no_default (t : asn1) : bool :=
  match t with
  | TSeq false m fs => match tags m with [] => false | _ => forallb (fun f => match fpres f with Def => false | _ => true end) fs end
  | _ => false
  end.
Lemma fields_part : forall fs vs cs i f x, enc_fields vs fs = Ok cs ->
  forallb (fun f => match fpres f with Def => false | _ => true end) fs = true ->
  nth_error fs i = Some f -> nth_error vs i = Some (Some x) ->
  exists ine c, enc x (is_some (fopen f)) ine (ftype f) = Ok c /\ (List.length c <= List.length (List.concat (map snd cs)))%nat.
Proof.
  induction fs as [|[fn p t d op] fs IH]; intros vs cs i f x E ND F V; [destruct i; discriminate|].
  destruct vs as [|o vs]; [destruct i; discriminate|]. cbn [enc_fields] in E. apply rbind_ok in E. destruct E as (r & E & H).
  cbn [forallb fpres] in ND. apply andb_true_iff in ND. destruct ND as [ND1 ND].
  destruct i as [|i].
  - cbn in F, V. assert (f = Fld fn p t d op) by congruence. assert (o = Some x) by congruence. subst. cbn [fopen ftype].
    destruct p; try discriminate; apply rbind_ok in H; destruct H as (c & C & Q); injection Q as Q; subst cs; cbn [map snd List.concat];
      rewrite app_length; eauto with arith.
  - cbn in F, V. destruct (IH _ _ _ _ _ E ND F V) as (ine & c & C & L). exists ine, c. split; [exact C|].
    assert (LE : (List.length (List.concat (map snd r)) <= List.length (List.concat (map snd cs)))%nat).
    { destruct o as [y|]; destruct p; try discriminate; try (apply rbind_ok in H; destruct H as (c' & _ & H)); injection H as H; subst cs;
        cbn [map snd List.concat]; rewrite ?app_length; lia. }
    lia.
Qed.
Lemma finish_length : forall ts k ine c bs, finish ts k ine c = Ok bs -> (List.length c <= List.length bs)%nat.
Proof.
  intros ts k ine c bs H. unfold finish in H. destruct ts as [|g ts]; [injection H as H; subst; lia|].
  destruct c as [|b c]; [cbn; lia|]. apply wrap_length in H. lia.
Qed.
Lemma octets_length : forall b opn ine t c, enc (VOcts b) opn ine t = Ok c -> (List.length b <= List.length c)%nat.
Proof.
  intros b opn ine t c H. cbn [enc] in H. destruct t as [k m| | |]; try discriminate. destruct k; cbn [enc_prim rbind] in H;
    try discriminate; exact (finish_length _ _ _ _ _ H).
Qed.
Lemma seq_part : forall m fs vs opn ine bs n x, no_default (TSeq false m fs) = true ->
  enc (VSeq vs) opn ine (TSeq false m fs) = Ok bs -> slot_of fs vs n = Some x ->
  exists f ine c, find (fun f => String.eqb (fname f) n) fs = Some f /\ enc x (is_some (fopen f)) ine (ftype f) = Ok c /\
    (List.length c <= List.length bs)%nat /\ (List.length c = 0 \/ List.length c < List.length bs)%nat.
Proof.
  intros m fs vs opn ine bs n x ND E SL. destruct (slot_nth _ _ _ _ SL) as (i & f & A & B & C).
  rewrite enc_seq_eq in E. destruct (ctruthy _ && _); [discriminate|]. apply rbind_ok in E. destruct E as (cs & EC & E).
  cbn [no_default] in ND. destruct (tags m) as [|g ts] eqn:TG; [discriminate|].
  destruct (fields_part _ _ _ _ _ _ EC ND A B) as (ine' & c & X & L). exists f, ine', c. split; [exact C|]. split; [exact X|].
  pose proof (finish_length _ _ _ _ _ E). split; [lia|].
  unfold finish in E. destruct (List.concat (map snd cs)) as [|b l] eqn:K.
  - left. cbn in L. lia.
  - right. apply wrap_length in E. cbn [List.length] in *. lia.
Qed.

Lemma component_slot : forall t v n x, component t v n = Some (Some x) -> exists s m fs vs, t = TSeq s m fs /\ v = VSeq vs /\ slot_of fs vs n = Some x.
Proof.
  intros t v n x H. unfold component in H. destruct t as [|s m fs| |]; try discriminate. destruct v; try discriminate.
  destruct (existsb _ _); [|discriminate]. injection H as H. eauto 8.
Qed.
Lemma no_default_seq : forall s m fs, no_default (TSeq s m fs) = true -> s = false.
Proof. intros [] m fs H; [discriminate|reflexivity]. Qed.

(** Each layer is shorter than the one it is taken from. *)
Lemma proceed_shorter : forall t n c v a b opn ine e, no_default t = true -> enc v opn ine t = Ok e -> proceed t n c v = Continue a (Some b) ->
  (List.length b = 0 \/ List.length b < List.length e)%nat.
Proof.
  intros t n c v a b opn ine e ND E P. unfold proceed in P.
  destruct (component t v n) as [[[]|]|]; try discriminate. destruct (component t v c) as [[x|]|] eqn:C; try discriminate.
  destruct x; try discriminate. injection P as P Q. subst.
  destruct (component_slot _ _ _ _ C) as (s & m & fs & vs & -> & -> & SL). pose proof (no_default_seq _ _ _ ND); subst s.
  destruct (seq_part _ _ _ _ _ _ _ _ ND E SL) as (f & ine' & c' & _ & X & L1 & L2). apply octets_length in X. lia.
Qed.
Lemma unwrap_inv : forall t d k r, unwrap t d k = r -> r = Fail \/ r = Out \/
  exists s v, d = Some s /\ encode t v = Ok s /\ k v = r.
Proof.
  intros t d k r H. unfold unwrap in H. destruct d as [s|]; [|auto]. destruct (decode t s) as [[v rest]| | |]; auto.
  destruct (encode t v) as [e| | |] eqn:E; auto. destruct (list_eqb N.eqb e s) eqn:Q; [|auto]. apply octs_eqb_eq in Q. subst e.
  destruct rest; [|auto]. right. right. exists s, v. auto.
Qed.

Definition two_fields (t : asn1) : bool :=
  match t with TSeq _ _ fs => list_eqb String.eqb (fnames fs) ["contentType"; "content"] | _ => false end.
Definition cmc_types_ok (h : list string) : bool :=
  check h "rfc5652" "ContentInfo" (fun _ t => no_default t && two_fields t) &&
  check h "rfc5652" "SignedData" (fun _ t => no_default t &&
    match component_type t "encapContentInfo" with Some t' => no_default t' | None => false end).
Lemma cmc_types_checked : cmc_types_ok ["rfc5652"] = true.
Proof. vm_cast_no_check (eq_refl true). Qed.

Lemma find_component_type : forall s m fs n f, find (fun f => String.eqb (fname f) n) fs = Some f -> component_type (TSeq s m fs) n = Some (ftype f).
Proof. intros s m fs n f H. unfold component_type. rewrite H. reflexivity. Qed.

Lemma type_of_schema : forall W m x t, type_of W m x = Some t -> exists o, schema W m x = Some (t, o).
Proof. intros W m x t H. unfold type_of in H. destruct (schema W m x) as [[t' o]|]; [|discriminate]. cbn in H. exists o. congruence. Qed.

(** The names the tool uses. *)
Definition oid_is (h : list string) (m x : string) (a : list N) : bool :=
  match session h with
  | OK W => match oid_of W m x with Some b => oid_eqb b a | None => false end
  | _ => false
  end.
Definition cmc_oids_ok (h : list string) : bool :=
  match cmc_known with
  | [a; b; c] => oid_is h "rfc5652" "id_ct_contentInfo" a && oid_is h "rfc5652" "id_signedData" b && oid_is h "rfc6402" "id_cct_PKIData" c
  | _ => false
  end && check h "rfc6402" "PKIData" (fun _ _ => true).
Lemma cmc_oids_checked : cmc_oids_ok ["rfc6402"] = true.
Proof. vm_cast_no_check (eq_refl true). Qed.
Lemma oid_is_sound : forall h m x a, oid_is h m x a = true -> forall h' W, session h' = OK W -> loaded W m <> None -> oid_of W m x = Some a.
Proof.
  intros h m x a H h' W E L. unfold oid_is in H. destruct (session h) as [W0|e|e] eqn:E0; [|discriminate H|discriminate H].
  unfold oid_of in *. rewrite (schema_is h' W m x E L). destruct (schema W0 m x) as [s|] eqn:HS; [|discriminate H].
  rewrite <- (schema_is h W0 m x E0 (schema_loaded _ _ _ _ HS)), HS.
  destruct s as [t [v|]]; [|discriminate H]. destruct v as [ | | | | | |b| | | |]; try discriminate H. apply oid_eqb_eq in H. rewrite H. reflexivity.
Qed.
Lemma type_of_everywhere : forall h m x f, check h m x (fun _ => f) = true -> forall h' W, session h' = OK W -> loaded W m <> None ->
  exists t, type_of W m x = Some t /\ f t = true.
Proof.
  intros h m x f H h' W E L. destruct (check_everywhere h m x f H h' W E L) as (t & o & HS & K).
  exists t. unfold type_of. rewrite HS. auto.
Qed.

(** The loop body in full. *)
Lemma cmc_step_is : forall h W, session h = OK W -> loaded W "rfc5652" <> None -> loaded W "rfc6402" <> None ->
  exists tci tsd te tpd, type_of W "rfc5652" "ContentInfo" = Some tci /\ type_of W "rfc5652" "SignedData" = Some tsd /\
    type_of W "rfc6402" "PKIData" = Some tpd /\ component_type tsd "encapContentInfo" = Some te /\
    no_default tci = true /\ no_default tsd = true /\ no_default te = true /\ two_fields tci = true /\
    forall a d, cmc_step W a d =
      if oid_eqb a [1; 2; 840; 113549; 1; 9; 16; 1; 6] then unwrap tci d (proceed tci "contentType" "content")
      else if oid_eqb a [1; 2; 840; 113549; 1; 7; 2] then
        unwrap tsd d (fun v => match component tsd v "encapContentInfo" with
                               | Some (Some e) => proceed te "eContentType" "eContent" e
                               | _ => Out
                               end)
      else if oid_eqb a [1; 3; 6; 1; 5; 5; 7; 12; 2] then unwrap tpd d (fun _ => Stop)
      else Continue a d.
Proof.
  intros h W E L1 L2. pose proof cmc_types_checked as K. apply andb_true_iff in K. destruct K as [K1 K2].
  pose proof cmc_oids_checked as K. apply andb_true_iff in K. destruct K as [K K6]. unfold cmc_known in K.
  apply andb_true_iff in K. destruct K as [K K5]. apply andb_true_iff in K. destruct K as [K3 K4].
  destruct (type_of_everywhere _ _ _ _ K1 h W E L1) as (tci & T1 & N1). destruct (type_of_everywhere _ _ _ _ K2 h W E L1) as (tsd & T2 & N2).
  destruct (type_of_everywhere _ _ _ _ K6 h W E L2) as (tpd & T3 & _).
  pose proof (oid_is_sound _ _ _ _ K3 h W E L1) as O1. pose proof (oid_is_sound _ _ _ _ K4 h W E L1) as O2.
  pose proof (oid_is_sound _ _ _ _ K5 h W E L2) as O3. clear K1 K2 K3 K4 K5 K6 E L1 L2. cbv beta in *.
  apply andb_true_iff in N1. destruct N1 as [N1 N4]. apply andb_true_iff in N2. destruct N2 as [N2 N3].
  destruct (component_type tsd "encapContentInfo") as [te|] eqn:CT; [|discriminate N3].
  exists tci, tsd, te, tpd. repeat (split; [first [exact T1|exact T2|exact T3|exact CT|exact N1|exact N2|exact N3|exact N4|reflexivity]|]).
  intros a d. unfold cmc_step. rewrite O1, O2, O3, T1, T2, T3.
  assert (X : (fun v => match component tsd v "encapContentInfo", component_type tsd "encapContentInfo" with
                        | Some (Some e), Some te => proceed te "eContentType" "eContent" e | _, _ => Out end)
            = (fun v => match component tsd v "encapContentInfo", Some te with
                        | Some (Some e), Some te => proceed te "eContentType" "eContent" e | _, _ => Out end)) by (rewrite CT; reflexivity).
  rewrite X. destruct (oid_eqb a _); [reflexivity|]. destruct (oid_eqb a _); [|reflexivity].
  unfold unwrap. destruct d as [s|]; [|reflexivity]. destruct (decode tsd s) as [[v rest]| | |]; try reflexivity.
Qed.

Lemma unknown_spins : forall h W, session h = OK W -> loaded W "rfc5652" <> None -> loaded W "rfc6402" <> None ->
  forall a d, ~ In a cmc_known -> cmc_step W a d = Continue a d.
Proof.
  intros h W E L1 L2 a d N. destruct (cmc_step_is h W E L1 L2) as (tci & tsd & te & tpd & _ & _ & _ & _ & _ & _ & _ & _ & K).
  rewrite K. clear K E L1 L2. unfold cmc_known in N.
  destruct (oid_eqb a [1; 2; 840; 113549; 1; 9; 16; 1; 6]) eqn:Q1; [apply oid_eqb_eq in Q1; subst; exfalso; apply N; left; reflexivity|].
  destruct (oid_eqb a [1; 2; 840; 113549; 1; 7; 2]) eqn:Q2; [apply oid_eqb_eq in Q2; subst; exfalso; apply N; right; left; reflexivity|].
  destruct (oid_eqb a [1; 3; 6; 1; 5; 5; 7; 12; 2]) eqn:Q3; [apply oid_eqb_eq in Q3; subst; exfalso; apply N; right; right; left; reflexivity|].
  reflexivity.
Qed.
(** A known layer ends the loop or is followed by a shorter one. *)
Lemma known_shrinks : forall h W, session h = OK W -> loaded W "rfc5652" <> None -> loaded W "rfc6402" <> None ->
  forall a d b e, In a cmc_known -> cmc_step W a d = Continue b e ->
  exists s, d = Some s /\ s <> [] /\ match e with None => True | Some s' => s' = [] \/ (List.length s' < List.length s)%nat end.
Proof.
  intros h W E L1 L2 a d b e I H. destruct (cmc_step_is h W E L1 L2) as (tci & tsd & te & tpd & _ & _ & _ & CT & N1 & N2 & N3 & _ & K).
  rewrite K in H. clear K E L1 L2.
  assert (NE : forall t k s, unwrap t (Some s) k = Continue b e -> s <> []).
  { intros t k s U ->. unfold unwrap, decode, decode_with, dec_one in U. destruct (tok _); discriminate U. }
  destruct (oid_eqb a [1; 2; 840; 113549; 1; 9; 16; 1; 6]) eqn:Q1.
  { destruct (unwrap_inv _ _ _ _ H) as [U|[U|(s & v & D & EN & U)]]; [discriminate U|discriminate U|].
    subst d. exists s. split; [reflexivity|]. split; [exact (NE _ _ _ H)|].
    destruct e as [s'|]; [|exact Logic.I]. destruct (proceed_shorter _ _ _ _ _ _ _ _ _ N1 EN U) as [L|L]; [|right; exact L].
    left. destruct s'; [reflexivity|discriminate L]. }
  destruct (oid_eqb a [1; 2; 840; 113549; 1; 7; 2]) eqn:Q2.
  { destruct (unwrap_inv _ _ _ _ H) as [U|[U|(s & v & D & EN & U)]]; [discriminate U|discriminate U|].
    subst d. exists s. split; [reflexivity|]. split; [exact (NE _ _ _ H)|].
    destruct e as [s'|]; [|exact Logic.I].
    destruct (component tsd v "encapContentInfo") as [[ev|]|] eqn:C; try discriminate U.
    destruct (component_slot _ _ _ _ C) as (ss & m & fs & vs & -> & -> & SL). pose proof (no_default_seq _ _ _ N2); subst ss.
    destruct (seq_part _ _ _ _ _ _ _ _ N2 EN SL) as (f & ine' & c' & F & X & LE1 & LE2).
    rewrite (find_component_type _ _ _ _ _ F) in CT. injection CT as CT. subst te.
    destruct (proceed_shorter _ _ _ _ _ _ _ _ _ N3 X U) as [L|L]; [|right; lia].
    left. destruct s'; [reflexivity|discriminate L]. }
  destruct (oid_eqb a [1; 3; 6; 1; 5; 5; 7; 12; 2]) eqn:Q3.
  { destruct (unwrap_inv _ _ _ _ H) as [U|[U|(s0 & v & D & EN & U)]]; discriminate U. }
  exfalso. destruct I as [I|[I|[I|[]]]]; subst a; try discriminate Q1; try discriminate Q2; discriminate Q3.
Qed.

Lemma spins_forever : forall h W, session h = OK W -> loaded W "rfc5652" <> None -> loaded W "rfc6402" <> None ->
  forall a d b e, reaches W a d b e -> ~ In b cmc_known -> forall n, cmc_run W n a d = None.
Proof.
  intros h W E L1 L2 a d b e R N. induction R as [a d|a d b e c f S _ IH]; intro n.
  - induction n as [|n IHn]; [reflexivity|]. cbn [cmc_run]. rewrite (unknown_spins h W E L1 L2 a d N). exact IHn.
  - destruct n as [|n]; [reflexivity|]. cbn [cmc_run]. rewrite S. exact (IH N n).
Qed.
Lemma ends_or_unknown : forall h W, session h = OK W -> loaded W "rfc5652" <> None -> loaded W "rfc6402" <> None ->
  forall k a d, match d with None => True | Some s => List.length s <= k end%nat ->
  (exists r, cmc_run W (S (S (S k))) a d = Some r) \/ (exists b e, reaches W a d b e /\ ~ In b cmc_known).
Proof.
  intros h W E L1 L2.
  assert (B : forall a n, (exists r, cmc_run W (S n) a None = Some r) \/ (exists b e, reaches W a None b e /\ ~ In b cmc_known)).
  { intros a n. destruct (in_dec (list_eq_dec N.eq_dec) a cmc_known) as [I|N]; [|right; exists a, None; split; [apply here|exact N]].
    left. cbn [cmc_run]. destruct (cmc_step W a None) as [b e| | |] eqn:S; eauto.
    destruct (known_shrinks h W E L1 L2 _ _ _ _ I S) as (s & D & _). discriminate D. }
  assert (B0 : forall a n, (exists r, cmc_run W (S n) a (Some []) = Some r) \/ (exists b e, reaches W a (Some []) b e /\ ~ In b cmc_known)).
  { intros a n. destruct (in_dec (list_eq_dec N.eq_dec) a cmc_known) as [I|N]; [|right; exists a, (Some []); split; [apply here|exact N]].
    left. cbn [cmc_run]. destruct (cmc_step W a (Some [])) as [b e| | |] eqn:S; eauto.
    destruct (known_shrinks h W E L1 L2 _ _ _ _ I S) as (s & D & NE & _). injection D as D. congruence. }
  induction k as [|k IH]; intros a d L.
  - destruct d as [s|]; [|exact (B a _)]. destruct s; [|cbn in L; lia]. exact (B0 a _).
  - destruct (in_dec (list_eq_dec N.eq_dec) a cmc_known) as [I|N]; [|right; exists a, d; split; [apply here|exact N]].
    cbn [cmc_run]. destruct (cmc_step W a d) as [b e| | |] eqn:S; eauto.
    destruct (known_shrinks h W E L1 L2 _ _ _ _ I S) as (s & -> & NE & SH).
    assert (Q : (exists r, cmc_run W (Datatypes.S (Datatypes.S (Datatypes.S k))) b e = Some r) \/ (exists b' e', reaches W b e b' e' /\ ~ In b' cmc_known)).
    { destruct e as [s'|]; [|exact (B b _)]. destruct SH as [->|SH]; [exact (B0 b _)|]. apply IH. lia. }
    destruct Q as [[r Q]|(b' & e' & R & N)]; [left; exists r; exact Q|].
    right. exists b', e'. split; [exact (after W _ _ _ _ _ _ S R)|exact N].
Qed.

(** A ContentInfo of any other type: the loop never ends. *)
Lemma contentinfo_spins : forall h W, session h = OK W -> loaded W "rfc5652" <> None -> loaded W "rfc6402" <> None ->
  forall t o a b s, schema W "rfc5652" "ContentInfo" = Some (t, o) -> conf None t (VSeq [Some (VOid a); Some (VOcts b)]) = true ->
  encode t (VSeq [Some (VOid a); Some (VOcts b)]) = Ok s -> ~ In a cmc_known -> forall n, cmcdump W n s = None.
Proof.
  intros h W E L1 L2 t o a b s HS C EN N n.
  assert (NA : ~ In ("rfc5652", "ContentInfo") ambiguous_types).
  { intro X. repeat (destruct X as [X|X]; [discriminate X|]). exact X. }
  pose proof (type_round_trip h W _ _ t o E HS NA _ s [] C EN) as D. rewrite app_nil_r in D.
  pose proof (cmc_step_is h W E L1 L2) as (tci & tsd & te & tpd & T1 & _ & _ & _ & _ & _ & _ & N1 & K).
  assert (tci = t) by (unfold type_of in T1; rewrite HS in T1; cbn in T1; congruence). subst tci.
  unfold cmcdump. rewrite T1.
  pose proof cmc_oids_checked as KO. apply andb_true_iff in KO. destruct KO as [KO _]. unfold cmc_known in KO.
  apply andb_true_iff in KO. destruct KO as [KO _]. apply andb_true_iff in KO. destruct KO as [KO _].
  rewrite (oid_is_sound _ _ _ _ KO h W E L1). clear KO HS. rewrite D.
  refine (spins_forever h W E L1 L2 _ _ a (Some b) _ N n). apply (after _ _ _ a (Some b)); [|apply here].
  rewrite K. rewrite oid_eqb_refl. unfold unwrap. rewrite D, EN, octs_eqb_refl.
  destruct t as [|sq m fs| |]; try discriminate N1. cbn [two_fields] in N1.
  apply (list_eqb_sound String.eqb) in N1; [|intros u v Q; apply String.eqb_eq, Q].
  destruct fs as [|[n1 p1 t1 d1 o1] [|[n2 p2 t2 d2 o2] [|]]]; try discriminate N1. cbn in N1.
  assert (n1 = "contentType") by congruence. assert (n2 = "content") by congruence. subst. reflexivity.
Qed.

(** Well-formed nests of layers end in PKIData. *)
Inductive nest (W : world) : list N -> bytes -> Prop :=
| nest_pki t o v s : schema W "rfc6402" "PKIData" = Some (t, o) -> conf None t v = true -> encode t v = Ok s ->
    nest W [1; 3; 6; 1; 5; 5; 7; 12; 2] s
| nest_info t o v s a b : schema W "rfc5652" "ContentInfo" = Some (t, o) -> conf None t v = true -> encode t v = Ok s ->
    component t v "contentType" = Some (Some (VOid a)) -> component t v "content" = Some (Some (VOcts b)) -> nest W a b ->
    nest W [1; 2; 840; 113549; 1; 9; 16; 1; 6] s
| nest_signed t o v s te e a b : schema W "rfc5652" "SignedData" = Some (t, o) -> conf None t v = true -> encode t v = Ok s ->
    component_type t "encapContentInfo" = Some te -> component t v "encapContentInfo" = Some (Some e) ->
    component te e "eContentType" = Some (Some (VOid a)) -> component te e "eContent" = Some (Some (VOcts b)) -> nest W a b ->
    nest W [1; 2; 840; 113549; 1; 7; 2] s.

Lemma not_ambiguous : forall m x, existsb (fun q => String.eqb (fst q) m && String.eqb (snd q) x) ambiguous_types = false -> ~ In (m, x) ambiguous_types.
Proof.
  intros m x H I. assert (X : existsb (fun q => String.eqb (fst q) m && String.eqb (snd q) x) ambiguous_types = true); [|congruence].
  apply existsb_exists. exists (m, x). split; [exact I|]. cbn [fst snd]. rewrite !String.eqb_refl. reflexivity.
Qed.
Lemma unwrap_encoding : forall h W m x t o v s k, session h = OK W -> schema W m x = Some (t, o) -> ~ In (m, x) ambiguous_types ->
  conf None t v = true -> encode t v = Ok s -> unwrap t (Some s) k = k v.
Proof.
  intros h W m x t o v s k E HS N C EN. pose proof (type_round_trip h W m x t o E HS N v s [] C EN) as D. rewrite app_nil_r in D.
  unfold unwrap. rewrite D, EN, octs_eqb_refl. reflexivity.
Qed.
Lemma nest_finishes : forall h W, session h = OK W -> loaded W "rfc5652" <> None -> loaded W "rfc6402" <> None ->
  forall a s, nest W a s -> exists n, cmc_run W n a (Some s) = Some Finished.
Proof.
  intros h W E L1 L2. destruct (cmc_step_is h W E L1 L2) as (tci & tsd & te & tpd & T1 & T2 & T3 & CT & _ & _ & _ & _ & K).
  assert (TO : forall m x t o, schema W m x = Some (t, o) -> type_of W m x = Some t) by (intros m x t o HS; unfold type_of; rewrite HS; reflexivity).
  intros a s H. induction H as [t o v s HS C EN|t o v s a b HS C EN CA CB _ [n IH]|t o v s te' e a b HS C EN CT' CE CA CB _ [n IH]].
  - exists 1%nat. cbn [cmc_run]. rewrite K.
    pose proof (TO _ _ _ _ HS) as TT. assert (t = tpd) by congruence. subst t.
    change (oid_eqb [1; 3; 6; 1; 5; 5; 7; 12; 2] [1; 2; 840; 113549; 1; 9; 16; 1; 6]) with false.
    change (oid_eqb [1; 3; 6; 1; 5; 5; 7; 12; 2] [1; 2; 840; 113549; 1; 7; 2]) with false. rewrite oid_eqb_refl.
    rewrite (unwrap_encoding h W _ _ tpd o v s _ E HS (not_ambiguous "rfc6402" "PKIData" eq_refl) C EN). reflexivity.
  - exists (S n). cbn [cmc_run]. rewrite K. rewrite oid_eqb_refl.
    pose proof (TO _ _ _ _ HS) as TT. assert (t = tci) by congruence. subst t.
    rewrite (unwrap_encoding h W _ _ tci o v s _ E HS (not_ambiguous "rfc5652" "ContentInfo" eq_refl) C EN).
    unfold proceed. rewrite CA, CB. exact IH.
  - exists (S n). cbn [cmc_run]. rewrite K. change (oid_eqb [1; 2; 840; 113549; 1; 7; 2] [1; 2; 840; 113549; 1; 9; 16; 1; 6]) with false.
    rewrite oid_eqb_refl. pose proof (TO _ _ _ _ HS) as TT. assert (t = tsd) by congruence. subst t.
    rewrite (unwrap_encoding h W _ _ tsd o v s _ E HS (not_ambiguous "rfc5652" "SignedData" eq_refl) C EN).
    rewrite CE. assert (te' = te) by congruence. subst te'. unfold proceed. rewrite CA, CB. exact IH.
Qed.

End codec.
