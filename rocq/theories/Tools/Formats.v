(** What the files that the tools read hold by the standards: the labels of PEM blocks (RFC
    7468; OpenSSL's for keys), the content types of PKCS #7, the messages of OCSP, CMP and
    CRMF; and that the tools read them. *)
From Coq Require Import List String Ascii ZArith NArith Bool Lia.
From Verif Require Pem.Text Pem.Base64 Pem.Pem Pem.PemFacts Tools.DumpLoop.
From Verif Require Import Py.Syntax Asn1.Types Py.Eval Asn1.Bytes Asn1.Der Asn1.Wf Asn1.Total
  Load.Import Load.Computed Load.Schemas Load.Checked Load.CheckedFacts Tools.Recode Tools.Layers Tools.Programs
  Spec.X680 Spec.X690 Spec.Agree Spec.Conform Spec.Reads Spec.Looser Spec.Deviations.
From Verif Require Spec.Rfc5280 Spec.Rfc2986 Spec.Rfc8017 Spec.Rfc5208 Spec.Rfc2315 Spec.Rfc6960 Spec.Rfc4210 Spec.Rfc2511.
Import ListNotations.
Open Scope string_scope.
Open Scope list_scope.
Opaque T session.

Section codec.
Context {Cdc : codec}.

(** ** The formats *)

(** An ASN.1 type, and the components that the package has wrong. *)
Definition format : Type := sty * list exempt.

(** OpenSSL's DSA private key: version, p, q, g, public and private key. *)
Definition dsa_key := SEQUENCE [
  req "version" INTEGER; req "p" INTEGER; req "q" INTEGER; req "g" INTEGER; req "public" INTEGER; req "private" INTEGER].
(** "RSA PRIVATE KEY" holds a two-prime key. *)
Definition labels : list (string * format) := [
  ("CERTIFICATE", (Rfc5280.Certificate, []));
  ("X509 CRL", (Rfc5280.CertificateList, []));
  ("CERTIFICATE REQUEST", (Rfc2986.CertificationRequest, []));
  ("RSA PRIVATE KEY", (Rfc8017.RSAPrivateKey15, []));
  ("DSA PRIVATE KEY", (dsa_key, []));
  ("PRIVATE KEY", (Rfc5208.PrivateKeyInfo, without ["attributes"]));
  ("ENCRYPTED PRIVATE KEY", (Rfc5208.EncryptedPrivateKeyInfo, []))].
Definition begins (l : string) : string := ("-----BEGIN " ++ l ++ "-----")%string.
Definition ends (l : string) : string := ("-----END " ++ l ++ "-----")%string.

(** RFC 2315, section 14: pkcs-7 is 1.2.840.113549.1.7; data, signedData, envelopedData,
    signedAndEnvelopedData, digestedData and encryptedData are 1 to 6. *)
Definition p7_contents : list (list N * (string * format)) := [
  ([1; 2; 840; 113549; 1; 7; 1]%N, ("Data", (OCTET_STRING, [])));
  ([1; 2; 840; 113549; 1; 7; 2]%N, ("SignedData", (Rfc2315.SignedData, explicit ["digestAlgorithms"; "signerInfos"])));
  ([1; 2; 840; 113549; 1; 7; 3]%N, ("EnvelopedData", (Rfc2315.EnvelopedData, [])));
  ([1; 2; 840; 113549; 1; 7; 4]%N, ("SignedAndEnvelopedData", (Rfc2315.SignedAndEnvelopedData, [])));
  ([1; 2; 840; 113549; 1; 7; 5]%N, ("DigestedData", (Rfc2315.DigestedData, [])));
  ([1; 2; 840; 113549; 1; 7; 6]%N, ("EncryptedData", (Rfc2315.EncryptedData, [])))].

(** The messages read by the base64 tools. *)
Definition messages : list (name2 * format) := [
  (("rfc2560", "OCSPRequest"), (Rfc6960.OCSPRequest, without ["requestorName"]));
  (("rfc2560", "OCSPResponse"), (Rfc6960.OCSPResponse, []));
  (("rfc4210", "PKIMessage"), (Rfc4210.PKIMessage, cmp_parts ++ cmp_bodies));
  (("rfc2511", "CertReqMessages"), (Rfc2511.CertReqMessages, without ["sender"]))].

(** [e] is the DER encoding of the value [v] in this format. *)
Definition encodes (f : format) (v : aval) (e : bytes) : Prop :=
  has (fst f) v = true /\ spares (snd f) (fst f) v = true /\ regular false (fst f) v = true /\ normal (fst f) v /\ DER (fst f) v = Some e.

(** ** The schema objects *)

Definition reads_format (n : name2) (f : format) : bool :=
  check [fst n] (fst n) (snd n) (fun _ t => agrees_but (snd f) false false (fst f) None [] [] t && looser_but (snd f) (fst f) [] t)
  && negb (existsb (fun q => String.eqb (fst q) (fst n) && String.eqb (snd q) (snd n)) ambiguous_types).
Lemma format_read : forall n f, reads_format n f = true -> forall h W t o, session h = OK W -> schema W (fst n) (snd n) = Some (t, o) ->
  forall v e junk, encodes f v e -> decode t (e ++ junk) = Ok (v, junk) /\ encode t v = Ok e.
Proof.
  intros [m x] [s sk] R h W t o E HS v e junk (H & SP & RG & NO & D). cbn [fst snd] in *. unfold reads_format in R. cbn [fst snd] in R.
  apply andb_true_iff in R. destruct R as [R N]. apply negb_true_iff in N. apply not_ambiguous in N.
  pose proof (check_type _ _ _ (fun t => agrees_but sk false false s None [] [] t && looser_but sk s [] t) R h W t o E HS) as K. cbv beta in K.
  apply andb_true_iff in K. destruct K as [A L]. destruct (has_shaped s v H) as [S B]. split.
  - exact (decode_reads_der_but sk false false s t v e junk A (type_wf h W m x t o E HS N) (type_open_plain h W m x t o E HS)
             H SP RG NO (looser_allows_but sk s [] t v L S SP eq_refl B) D).
  - rewrite (encode_is_der_but sk false false s t v A H SP RG), D. reflexivity.
Qed.
Lemma format_there : forall n f, reads_format n f = true -> forall h W, session h = OK W -> loaded W (fst n) <> None ->
  exists t o, schema W (fst n) (snd n) = Some (t, o).
Proof.
  intros [m x] f R h W E L. cbn [fst snd] in *. unfold reads_format in R. cbn [fst snd] in R. apply andb_true_iff in R. destruct R as [R _].
  destruct (check_everywhere _ _ _ (fun t => agrees_but (snd f) false false (fst f) None [] [] t && looser_but (snd f) (fst f) [] t) R h W E L) as (t & o & HS & _).
  exists t, o. exact HS.
Qed.
Lemma decoded_nonempty : forall t e v, decode t (e ++ []) = Ok (v, []) -> e <> [].
Proof. intros t e v D ->. apply decode_suffix in D. destruct D as (p & P & NE). destruct p; [congruence|discriminate]. Qed.

(** ** PEM *)

Lemma chars_inj : forall a b, chars a = chars b -> a = b.
Proof.
  induction a as [|x a IH]; intros [|y b] H; try discriminate H; [reflexivity|].
  cbn in H. injection H as H1 H2. f_equal; [|exact (IH b H2)].
  rewrite <- (ascii_N_embedding x), <- (ascii_N_embedding y), H1. reflexivity.
Qed.
(** The label of a pair of markers, with its format. *)
Definition label_of (a b : string) : option (string * format) :=
  find (fun f => String.eqb (begins (fst f)) a && String.eqb (ends (fst f)) b) labels.
Definition block_reads (q : string * string * name2) : bool :=
  match label_of (fst (fst q)) (snd (fst q)) with Some f => reads_format (snd q) (snd f) | None => false end.
Lemma blocks_read : forallb (fun p => forallb block_reads (pt_blocks p)) pem_tools = true.
Proof. vm_cast_no_check (eq_refl true). Qed.

(** A block with a label of the table, whose data starts with DER of that format. *)
Definition labelled (b : PemFacts.block) (v : aval) : Prop :=
  exists l f e junk, In (l, f) labels /\ PemFacts.b_start b = chars (begins l) /\ PemFacts.b_stop b = chars (ends l) /\
    encodes f v e /\ PemFacts.b_data b = e ++ junk.
(** What a PEM tool prints of a block. *)
Definition prints (W : world) (p : pem_tool) (b : PemFacts.block) : option aval :=
  match spec_for W p (PemFacts.b_idx b) with
  | Some t => match recode t (PemFacts.b_data b) with Ok (v, true) => Some v | _ => None end
  | None => None
  end.

Lemma labels_unique : forall l f f', In (l, f) labels -> find (fun g => String.eqb (begins (fst g)) (begins l) && String.eqb (ends (fst g)) (ends l)) labels = Some f' -> snd f' = f.
Proof.
  intros l f f' I F. repeat (destruct I as [I|I]; [inversion I; subst; vm_compute in F; injection F as <-; reflexivity|]). destruct I.
Qed.
Lemma block_label : forall p b l, PemFacts.block_ok (pt_markers p) b -> PemFacts.b_start b = chars (begins l) -> PemFacts.b_stop b = chars (ends l) ->
  exists n, nth_error (pt_blocks p) (PemFacts.b_idx b) = Some (begins l, ends l, n).
Proof.
  intros p b l (_ & _ & ((e & O) & _) & ((s & C) & _) & _) S P. rewrite S in O. rewrite P in C. rewrite O in C. injection C as <- ->.
  unfold pt_markers in O. rewrite nth_error_map in O. destruct (nth_error (pt_blocks p) (PemFacts.b_idx b)) as [[[a z] n]|]; [|discriminate O].
  cbn [option_map fst snd] in O. injection O as A Z. exists n. rewrite (chars_inj _ _ A), (chars_inj _ _ Z). reflexivity.
Qed.
Lemma block_read : forall h W p, session h = OK W -> In p pem_tools -> (forall q, In q (pt_blocks p) -> loaded W (fst (snd q)) <> None) ->
  forall b v, PemFacts.block_ok (pt_markers p) b -> labelled b v -> PemFacts.b_data b <> [] /\ prints W p b = Some v /\
    body W p (Z.of_nat (PemFacts.b_idx b)) (PemFacts.b_data b) = true.
Proof.
  intros h W p E HP L b v OK (l & f & e & junk & I & S & P & EN & D). destruct (block_label p b l OK S P) as (n & N).
  pose proof (proj1 (forallb_forall _ _) blocks_read p HP) as K. cbv beta in K.
  pose proof (proj1 (forallb_forall _ _) K _ (nth_error_In _ _ N)) as K1. unfold block_reads in K1. cbn [fst snd] in K1.
  unfold label_of in K1. destruct (find _ labels) as [f'|] eqn:F; [|discriminate K1].
  apply (labels_unique l f f' I) in F. rewrite F in K1.
  destruct (format_there n f K1 h W E (L _ (nth_error_In _ _ N))) as (t & o & HS).
  destruct (format_read n f K1 h W t o E HS v e junk EN) as [DE EC].
  assert (SP : spec_for W p (PemFacts.b_idx b) = Some t).
  { unfold spec_for. rewrite N. destruct n as [m x]. unfold type_of. cbn [fst snd] in HS. rewrite HS. reflexivity. }
  pose proof (recode_encoding t v e junk DE EC) as RC. rewrite <- D in RC. split; [|split].
  - rewrite D. destruct (format_read n f K1 h W t o E HS v e [] EN) as [DE0 _]. pose proof (decoded_nonempty t e v DE0). destruct e; [congruence|discriminate].
  - unfold prints. rewrite SP, RC. reflexivity.
  - unfold body. rewrite Nat2Z.id, SP, RC. reflexivity.
Qed.
(** Every PEM tool prints the values of the file's blocks and ends normally. *)
Lemma pem_tool_reads : forall h W p, session h = OK W -> In p pem_tools -> (forall q, In q (pt_blocks p) -> loaded W (fst (snd q)) <> None) ->
  forall bs vs post, Forall (PemFacts.block_ok (pt_markers p)) bs -> Forall2 labelled bs vs ->
  Forall (fun l => ~ In Text.LF l /\ ~ Pem.is_start (pt_markers p) (Text.strip l)) post ->
  run_pem W p (List.concat (map PemFacts.block_text bs) ++ Pem.unlines post)
  = Some (map (fun b => (Z.of_nat (PemFacts.b_idx b), PemFacts.b_data b)) bs, DumpLoop.Finished) /\ map (prints W p) bs = map Some vs.
Proof.
  intros h W p E HP L bs vs post HB HC HL.
  assert (K : forall b, In b bs -> PemFacts.b_data b <> [] /\ body W p (Z.of_nat (PemFacts.b_idx b)) (PemFacts.b_data b) = true).
  { intros b I. rewrite Forall_forall in HB. assert (V : exists v, labelled b v).
    { clear - HC I. induction HC as [|b' v' bs vs H HC IH]; [destruct I|]. destruct I as [<-|I]; [exists v'; exact H|exact (IH I)]. }
    destruct V as (v & V). destruct (block_read h W p E HP L b v (HB b I) V) as (A & _ & B). split; assumption. }
  split.
  - unfold run_pem. rewrite (DumpLoop.dump_blocks (body W p) (pt_markers p) bs (Pem.unlines post) HB).
    + rewrite (DumpLoop.dump_spam (body W p) (pt_markers p) post HL), app_nil_r. reflexivity.
    + apply Forall_forall. intros b I. exact (proj1 (K b I)).
    + intros b I. exact (proj2 (K b I)).
  - clear K HL. induction HC as [|b v bs vs H HC IH]; [reflexivity|]. inversion HB; subst. cbn [map].
    destruct (block_read h W p E HP L b v ltac:(assumption) H) as (_ & -> & _). f_equal. apply IH. assumption.
Qed.

(** ** PKCS #7 *)

Definition p7_fields (t : asn1) : bool :=
  match t with TSeq _ _ [f; g] => String.eqb (fname f) "contentType" && String.eqb (fname g) "content" | _ => false end.
Lemma p7_outer : reads_format ("rfc2315", "ContentInfo") (Rfc2315.ContentInfo, []) = true.
Proof. vm_cast_no_check (eq_refl true). Qed.
Lemma p7_named : check ["rfc2315"] "rfc2315" "ContentInfo" (fun _ => p7_fields) = true.
Proof. vm_cast_no_check (eq_refl true). Qed.
Definition p7_reads_content (q : list N * (string * format)) : bool :=
  reads_format ("rfc2315", fst (snd q)) (snd (snd q)) && match p7_spec (fst q) with Some x => String.eqb x (fst (snd q)) | None => false end.
Lemma p7_inner : forallb p7_reads_content p7_contents = true.
Proof. vm_cast_no_check (eq_refl true). Qed.
(** A PKCS #7 message: its content type is one of the table, its content the DER encoding of a
    value of that content type. *)
Definition p7_message (w : aval) (s : bytes) : Prop :=
  exists a x f b e junk, In (a, (x, f)) p7_contents /\ encodes f w b /\
    encodes (Rfc2315.ContentInfo, []) (VSeq [Some (VOid a); Some (VOcts b)]) e /\ s = e ++ junk.
Lemma p7_reads : forall h W, session h = OK W -> loaded W "rfc2315" <> None -> forall w s, p7_message w s -> p7_body W s = P7Printed w.
Proof.
  intros h W E L w s (a & x & f & b & e & junk & I & EW & EC & ->). pose proof p7_outer as K1.
  pose proof (proj1 (forallb_forall _ _) p7_inner _ I) as K4. unfold p7_reads_content in K4. cbn [fst snd] in K4.
  apply andb_prop in K4. destruct K4 as [K4 K5].
  destruct (format_there _ _ K1 h W E L) as (t & o & HS). destruct (format_there _ _ K4 h W E L) as (t' & o' & HS'). cbn [fst snd] in *.
  destruct (format_read _ _ K1 h W t o E HS _ e junk EC) as [D EN].
  destruct (format_read _ _ K4 h W t' o' E HS' w b [] EW) as [D' _]. rewrite app_nil_r in D'.
  unfold p7_body, type_of at 1. rewrite HS. cbn [option_map fst]. rewrite (recode_encoding t _ e junk D EN).
  pose proof (check_type _ _ _ p7_fields p7_named h W t o E HS) as N. unfold p7_fields in N. destruct t as [|i mt [|f1 [|f2 [|]]]| |]; try discriminate N. apply andb_true_iff in N. destruct N as [N1 N2].
  apply String.eqb_eq in N1, N2. destruct (p7_spec a) as [x'|] eqn:PS; [|discriminate K5]. apply String.eqb_eq in K5. subst x'.
  unfold component. cbn. rewrite N1, N2. cbn. rewrite PS. unfold type_of. rewrite HS'. cbn [option_map fst]. rewrite D'. reflexivity.
Qed.

(** ** Base64 *)

Lemma messages_read : forallb (fun q => reads_format (fst q) (snd q)) messages = true.
Proof. vm_cast_no_check (eq_refl true). Qed.
Lemma b64_reads : forall h W m x f, session h = OK W -> loaded W m <> None -> In ((m, x), f) messages ->
  forall v e text, encodes f v e -> fst (Pem.readBase64FromFile text) = Base64.Ok e -> run_b64 W m x text = Value v.
Proof.
  intros h W m x f E L I v e text EN RD. pose proof (proj1 (forallb_forall _ _) messages_read _ I) as K. cbn [fst snd] in K.
  destruct (format_there _ _ K h W E L) as (t & o & HS). destruct (format_read _ _ K h W t o E HS v e [] EN) as [D EC]. cbn [fst snd] in HS.
  unfold run_b64. rewrite RD. pose proof (decoded_nonempty t e v D) as NE.
  pose proof (recode_all_encoding t v e [] D EC) as RC. rewrite app_nil_r in RC.
  destruct e as [|b0 e']; [congruence|]. unfold type_of. rewrite HS. cbn [option_map fst]. rewrite RC. reflexivity.
Qed.

(** pkcs7dump from the text on: the first block of the file. *)
Lemma pkcs7dump_reads : forall h W, session h = OK W -> loaded W "rfc2315" <> None ->
  forall b w tail, PemFacts.block_ok p7_markers b -> p7_message w (PemFacts.b_data b) ->
  pkcs7dump W (PemFacts.block_text b ++ tail) = P7Printed w.
Proof.
  intros h W E L b w tail (G1 & G2 & O & C & P & K & D & WR) M. unfold pkcs7dump.
  pose proof (PemFacts.armour_roundtrip p7_markers (PemFacts.b_pre b) (PemFacts.b_start b) (PemFacts.b_stop b) (PemFacts.b_k b) (PemFacts.b_data b)
                (PemFacts.b_lines b) tail (PemFacts.b_idx b) G1 G2 O C P K D WR) as RD.
  change (Pem.readPemBlocksFromFile p7_markers (PemFacts.block_text b ++ tail)
    = (Base64.Ok (Z.of_nat (PemFacts.b_idx b), Pem.Bytes (PemFacts.b_data b)), tail)) in RD. rewrite RD.
  cbn [fst Pem.octets]. pose proof (p7_reads h W E L w _ M) as R.
  assert (NE : PemFacts.b_data b <> []).
  { intro X. destruct M as (a & x & f & b' & e & junk & _ & _ & EC & S). rewrite X in S. symmetry in S. apply app_eq_nil in S. destruct S as [S _]. subst e.
    pose proof p7_outer as K1. destruct (format_there _ _ K1 h W E L) as (t & o & HS).
    destruct (format_read _ _ K1 h W t o E HS _ [] [] EC) as [DE _]. exact (decoded_nonempty t [] _ DE eq_refl). }
  destruct (PemFacts.b_data b) as [|b0 l]; [congruence|]. exact R.
Qed.

End codec.
