(** Properties C01-C12: the PEM reader and the dump loop on top of it.
    Vocabulary: [Pem.Pem] (specification section) and RFC 4648 [b64encode]. *)
From Coq Require Import List NArith ZArith Bool Lia.
From Verif Require Import Pem.Text Pem.Base64 Pem.Pem Pem.PemFacts Tools.DumpLoop.
Import ListNotations.

(** Concrete data for the non-vacuity examples: markers "-B"/"-E" and "-C"/"-F". *)
Definition ex_m : markers := [([45;66], [45;69]); ([45;67], [45;70])]%N.
Definition ex_data : bytes := [1;2;3;250;251;252;7]%N.

(** The complete behaviour (C03, C04, C05, C08, C10 follow): on every file the
    reader returns what [pem_spec] prescribes for its lines, leaves exactly the
    prescribed lines unread, and [pem_spec] prescribes one thing only. *)
Theorem C05_reader_refines_spec : forall m f ls, lines_of ls f ->
  exists rest, pem_spec m ls (fst (readPemBlocksFromFile m f)) rest /\
               snd (readPemBlocksFromFile m f) = concat rest.
Proof. exact read_spec. Qed.
Print Assumptions C05_reader_refines_spec.

Theorem C05_spec_deterministic : forall m ls r rest r' rest',
  pem_spec m ls r rest -> pem_spec m ls r' rest' -> r = r' /\ rest = rest'.
Proof. exact pem_spec_fun. Qed.
Print Assumptions C05_spec_deterministic.

(** Every text is the text of some list of lines, so the theorem above applies
    to every file. *)
Theorem C05_every_file_has_lines : forall f, exists ls, lines_of ls f /\ concat ls = f.
Proof. intros f. exists (split_lines f). split; [exact (split_lines_of f) | exact (split_lines_concat f)]. Qed.
Print Assumptions C05_every_file_has_lines.

(** A stop line of another pair ("-F") is payload: it is base64-decoded (and its
    single alphabet character is what raises here), the block ends at "-E". *)
Example C05_ex :
  readPemBlocksFromFile ex_m (unlines [[45;66]; [45;70]; [65;81;73;68]; [45;69]; [88]]%N)
  = (Err BadLength, unlines [[88]]%N).
Proof. vm_compute. reflexivity. Qed.

(** C01 *)
Theorem C01_armour_roundtrip : forall m pre s e k d ls tail i,
  good_marker s -> good_marker e -> opens m s i -> closes m e i ->
  Forall (fun l => ~ In LF l /\ ~ is_start m (strip l)) pre ->
  (0 < k)%nat -> Forall is_byte d -> wrapped (4 * k) (b64encode d) ls ->
  readPemBlocksFromFile m (unlines (pre ++ s :: ls ++ [e]) ++ tail)
  = (Ok (Z.of_nat i, Bytes d), tail).
Proof. exact armour_roundtrip. Qed.
Print Assumptions C01_armour_roundtrip.

Theorem C01_wrapping_exists : forall w t, (0 < w)%nat -> exists ls, wrapped w t ls.
Proof. exact wrapped_exists. Qed.
Print Assumptions C01_wrapping_exists.

Lemma ex_hyps :
  good_marker [45;67]%N /\ good_marker [45;70]%N /\ opens ex_m [45;67]%N 1 /\ closes ex_m [45;70]%N 1.
Proof.
  unfold good_marker. repeat split; try (exists 45%N; split; [left; reflexivity | reflexivity]);
    try (cbn; intuition discriminate); try (eexists; reflexivity);
    intros [|[|[|j]]] s' e' Hj; cbn; try lia; discriminate.
Qed.

Example C01_ex : exists ls,
  wrapped (4 * 2) (b64encode ex_data) ls /\ length ls = 2%nat /\ 
  readPemBlocksFromFile ex_m (unlines ([[104;105]] ++ [45;67] :: ls ++ [[45;70]]) ++ [120;121])%N
  = (Ok (1%Z, Bytes ex_data), [120;121]%N).
Proof.
  exists [[65;81;73;68;43;118;118;56]; [66;119;61;61]]%N.
  split; [|split; [reflexivity | vm_compute; reflexivity]].
  change (b64encode ex_data) with ([65;81;73;68;43;118;118;56] ++ [66;119;61;61])%N.
  constructor; [reflexivity | discriminate |]. constructor; [discriminate | cbn; lia].
Qed.

(** C01 for [readPemFromFile]: one pair, index dropped. *)
Theorem C01_single_pair : forall pre s e k d ls tail,
  good_marker s -> good_marker e ->
  Forall (fun l => ~ In LF l /\ strip l <> s) pre ->
  (0 < k)%nat -> Forall is_byte d -> wrapped (4 * k) (b64encode d) ls ->
  readPemFromFile s e (unlines (pre ++ s :: ls ++ [e]) ++ tail) = (Ok (Bytes d), tail).
Proof.
  intros pre s e k d ls tail Gs Ge Hpre Hk Hd Hw. unfold readPemFromFile.
  rewrite (armour_roundtrip [(s, e)] pre s e k d ls tail 0); auto.
  - split; [eexists; reflexivity|]. intros [|[|j]] s' e' Hj; cbn; try lia; discriminate.
  - split; [eexists; reflexivity|]. intros [|[|j]] s' e' Hj; cbn; try lia; discriminate.
  - eapply Forall_impl; [|exact Hpre]. cbv beta. intros l [H1 H2]. split; [assumption|].
    intros [x [H|[]]]. inversion H; subst. now apply H2.
Qed.
Print Assumptions C01_single_pair.

(** C02 *)
Theorem C02_calls_enumerate_blocks : forall m bs post n,
  Forall (block_ok m) bs ->
  Forall (fun l => ~ In LF l /\ ~ is_start m (strip l)) post ->
  calls (length bs + S n) m (concat (map block_text bs) ++ unlines post)
  = (map (fun b => Ok (Z.of_nat (b_idx b), Bytes (b_data b))) bs
       ++ repeat (Ok ((-1)%Z, NoText)) (S n), []).
Proof. exact calls_blocks. Qed.
Print Assumptions C02_calls_enumerate_blocks.

Definition ex_block : block :=
  mkB [[104;105]]%N 1 [45;67]%N [45;70]%N 2 ex_data [[65;81;73;68;43;118;118;56]; [66;119;61;61]]%N.
Example C02_ex : Forall (block_ok ex_m) [ex_block; ex_block].
Proof.
  assert (H : block_ok ex_m ex_block).
  { destruct ex_hyps as (G1 & G2 & G3 & G4).
    unfold block_ok, ex_block; cbn [b_start b_stop b_idx b_pre b_k b_data b_lines].
    repeat split; auto; try apply G1; try apply G2; try apply G3; try apply G4; try lia.
    - constructor; [|constructor]. split; [cbn; intuition discriminate|].
      intros [e [H|[H|[]]]]; discriminate.
    - repeat constructor.
    - destruct C01_ex as (ls & _ & _). 
      change (b64encode ex_data) with ([65;81;73;68;43;118;118;56] ++ [66;119;61;61])%N.
      constructor; [reflexivity | discriminate |]. constructor; [discriminate | cbn; lia]. }
  constructor; [exact H | constructor; [exact H | constructor]].
Qed.

(** C03 *)
Theorem C03_no_start_no_data : forall m f ls,
  lines_of ls f -> Forall (fun l => ~ is_start m (strip l)) ls ->
  readPemBlocksFromFile m f = (Ok ((-1)%Z, NoText), []).
Proof. exact read_spam_only. Qed.
Print Assumptions C03_no_start_no_data.

Example C03_ex : exists ls, lines_of ls [104;10;45;69;10]%N /\ Forall (fun l => ~ is_start ex_m (strip l)) ls.
Proof.
  exists [[104;10]; [45;69;10]]%N. split.
  - apply (lines_cons [104]%N); [cbn; intuition discriminate|].
    apply (lines_cons [45;69]%N); [cbn; intuition discriminate|]. constructor.
  - repeat constructor; intros [e [H|[H|[]]]]; discriminate.
Qed.

(** C04: whatever follows the start line, without the matching stop line there
    is no data and no exception. *)
Theorem C04_truncated_block_no_data : forall m f pre s bdy i,
  lines_of (pre ++ s :: bdy) f ->
  Forall (fun l => ~ is_start m (strip l)) pre -> opens m (strip s) i ->
  Forall (fun l => ~ closes m (strip l) i) bdy ->
  readPemBlocksFromFile m f = (Ok (Z.of_nat i, NoText), []).
Proof.
  intros m f pre s bdy i H H1 H2 H3.
  exact (spec_read m f _ _ [] H (spec_truncated m pre s bdy i H1 H2 H3)).
Qed.
Print Assumptions C04_truncated_block_no_data.

Example C04_ex : readPemBlocksFromFile ex_m ([104;10; 45;66;10; 65;81;73;68;10; 45;70;10; 65])%N
  = (Ok (0%Z, NoText), []).
Proof. vm_compute. reflexivity. Qed.

(** C06 *)
Theorem C06_whitespace_insensitive : forall m f f' ls ls',
  lines_of ls f -> lines_of ls' f' -> Forall2 (fun a b => strip a = strip b) ls ls' ->
  fst (readPemBlocksFromFile m f) = fst (readPemBlocksFromFile m f') /\
  exists n, snd (readPemBlocksFromFile m f) = concat (skipn n ls) /\
            snd (readPemBlocksFromFile m f') = concat (skipn n ls').
Proof. exact read_strip. Qed.
Print Assumptions C06_whitespace_insensitive.

(** White space on either side of a line is invisible (so CR LF = LF). *)
Theorem C06_strip_spaces : forall w1 t w2,
  forallb is_space w1 = true -> forallb is_space w2 = true -> strip (w1 ++ t ++ w2) = strip t.
Proof. exact strip_spaces. Qed.
Print Assumptions C06_strip_spaces.

(** CR LF files: same result as LF files. *)
Theorem C06_crlf : forall m ls,
  Forall (fun l => ~ In LF l) ls ->
  fst (readPemBlocksFromFile m (unlines (map (fun l => l ++ [13%N]) ls)))
  = fst (readPemBlocksFromFile m (unlines ls)).
Proof.
  intros m ls H.
  assert (Hcr : Forall (fun l => ~ In LF l) (map (fun l => l ++ [13%N]) ls)).
  { apply Forall_map. eapply Forall_impl; [|exact H]. cbv beta. intros l Hl Hin.
    apply in_app_or in Hin as [Hin|[Hin|[]]]; [tauto | discriminate]. }
  refine (proj1 (read_strip m _ _ _ _ (split_lines_of _) (split_lines_of _) _)).
  rewrite <- (app_nil_r (unlines (map _ ls))), <- (app_nil_r (unlines ls)).
  rewrite !unlines_split by assumption. cbn [split_lines]. rewrite !app_nil_r, map_map.
  clear H Hcr. induction ls as [|l ls IH]; constructor; [|assumption].
  rewrite !strip_LF. exact (C06_strip_spaces [] l [13%N] eq_refl eq_refl).
Qed.
Print Assumptions C06_crlf.

Example C06_ex : Forall2 (fun a b => strip a = strip b) [[32;45;66;13;10]; [9;10]]%N [[45;66;10]; [10]]%N.
Proof. repeat constructor. Qed.

(** C07 *)
Theorem C07_base64_text_roundtrip : forall d t,
  Forall is_byte d -> existsb is_surrogate t = false ->
  filter relevant t = b64encode d -> readBase64fromText t = Ok d.
Proof. exact b64decode_encode_gen. Qed.
Print Assumptions C07_base64_text_roundtrip.

Theorem C07_base64_file_roundtrip : forall d t,
  Forall is_byte d -> existsb is_surrogate t = false ->
  filter relevant t = b64encode d -> readBase64FromFile t = (Ok d, []).
Proof. intros d t H1 H2 H3. unfold readBase64FromFile, readBase64fromText. now rewrite (b64decode_encode_gen d t H1 H2 H3). Qed.
Print Assumptions C07_base64_file_roundtrip.

Example C07_ex : filter relevant ([65;10;81;73;33;68;61;61;10])%N <> b64encode [1;2;3]%N
  /\ filter relevant ([65;10;81;73;33;68;10])%N = b64encode [1;2;3]%N.
Proof. vm_compute. split; [discriminate | reflexivity]. Qed.

(** C08: lines are decoded one by one ... *)
Theorem C08_per_line : forall m pre s e bdy tail i d,
  ~ In LF s -> ~ In LF e -> strip s = s -> strip e = e ->
  opens m s i -> closes m e i ->
  Forall (fun l => ~ In LF l /\ ~ is_start m (strip l)) pre ->
  Forall (fun l => ~ In LF l /\ strip l <> e) bdy ->
  decoded (map strip bdy) d ->
  readPemBlocksFromFile m (unlines (pre ++ s :: bdy ++ [e]) ++ tail)
  = (match d with Ok b => Ok (Z.of_nat i, Bytes b) | Err x => Err x end, tail).
Proof. exact read_block. Qed.
Print Assumptions C08_per_line.

(** ... so a width that is no multiple of four always fails on payloads longer
    than a line, although the same text decodes as a whole (C07). *)
Theorem C08_bad_width_refuted : forall m pre s e w d ls tail i,
  good_marker s -> good_marker e -> opens m s i -> closes m e i ->
  Forall (fun l => ~ In LF l /\ ~ is_start m (strip l)) pre ->
  (w mod 4 <> 0)%nat -> Forall is_byte d -> wrapped w (b64encode d) ls ->
  (w + 2 < length (b64encode d))%nat ->
  (exists x, readPemBlocksFromFile m (unlines (pre ++ s :: ls ++ [e]) ++ tail) = (Err x, tail)) /\
  readBase64fromText (unlines ls) = Ok d.
Proof.
  intros m pre s e w d ls tail i Gs Ge Ho Hc Hpre Hw Hd Hwr Hlen.
  assert (F : Forall (fun l => b64_text l = true) ls).
  { pose proof (b64encode_relevant d Hd) as R. rewrite <- (wrapped_concat _ _ _ Hwr) in R.
    unfold b64_text in *. clear - R. induction ls as [|l ls IH]; [constructor|].
    cbn in R. rewrite forallb_app in R. apply andb_true_iff in R as [R1 R2]. constructor; auto. }
  split.
  - destruct (wrapped_bad_width w d ls Hw Hd Hwr Hlen) as [x Hx]. exists x.
    apply (read_block m pre s e ls tail i (Err x)); try assumption; try apply Gs; try apply Ge.
    + eapply Forall_impl; [|exact F]. cbv beta. intros l Hl. split; [now apply b64_text_no_LF|].
      rewrite b64_text_strip by assumption. now apply good_marker_not_payload.
    + replace (map strip ls) with ls; [exact Hx|].
      clear - F. induction F as [|l ls Hl _ IH]; cbn; [reflexivity|]. now rewrite <- IH, b64_text_strip.
  - apply b64decode_encode_gen; [assumption | |].
    + clear - F. induction F as [|l ls Hl _ IH]; [reflexivity|].
      change (unlines (l :: ls)) with ((l ++ [LF]) ++ unlines ls).
      rewrite !existsb_app, b64_text_no_surrogate, IH by assumption. reflexivity.
    + rewrite filter_relevant_unlines by assumption. now apply wrapped_concat in Hwr.
Qed.
Print Assumptions C08_bad_width_refuted.

Example C08_ex : exists ls, wrapped 6 (b64encode ex_data) ls /\ (6 + 2 < length (b64encode ex_data))%nat.
Proof.
  exists [[65;81;73;68;43;118]; [118;56;66;119;61;61]]%N. split; [|cbn; lia].
  change (b64encode ex_data) with ([65;81;73;68;43;118] ++ [118;56;66;119;61;61])%N.
  constructor; [reflexivity | discriminate |]. constructor; [discriminate | cbn; lia].
Qed.

(** C09 *)
Theorem C09_progress : forall m f ls, lines_of ls f ->
  exists n, snd (readPemBlocksFromFile m f) = concat (skipn n ls) /\ (f <> [] -> (0 < n)%nat).
Proof. exact read_progress. Qed.
Print Assumptions C09_progress.

(** The bound on the number of [readline] calls built into the model is never hit. *)
Theorem C09_terminates : forall m st f, exists r, loop (S (length f)) m st f = Some r.
Proof. exact loop_fuel. Qed.
Print Assumptions C09_terminates.

(** C10 *)
Theorem C10_start_last_wins : forall m s v,
  dict_get (startMarkers m) s = Some v <-> exists i, v = Z.of_nat i /\ opens m s i.
Proof.
  intros m s v. split.
  - intros E. pose proof (start_get m s) as G. rewrite E in G. exact G.
  - intros (i & -> & Hi). now apply opens_get.
Qed.
Print Assumptions C10_start_last_wins.

(** A block whose stop text is re-used by a later pair is never closed. *)
Theorem C10_shadowed_stop_never_closes : forall m f pre s bdy i j e s' ,
  lines_of (pre ++ s :: bdy) f ->
  Forall (fun l => ~ is_start m (strip l)) pre -> opens m (strip s) i ->
  nth_error m i = Some (strip s, e) -> (i < j)%nat -> nth_error m j = Some (s', e) ->
  readPemBlocksFromFile m f = (Ok (Z.of_nat i, NoText), []).
Proof.
  intros m f pre s bdy i j e s' H H1 H2 Hi Hij Hj.
  apply (C04_truncated_block_no_data m f pre s bdy i H H1 H2).
  apply Forall_forall. intros l _ [[x Hx] Hlast].
  rewrite Hi in Hx. inversion Hx; subst. eapply Hlast; eauto.
Qed.
Print Assumptions C10_shadowed_stop_never_closes.

Example C10_ex : readPemBlocksFromFile [([45;66], [45;69]); ([45;67], [45;69])]%N
   ([45;66;10; 65;81;73;68;10; 45;69;10])%N = (Ok (0%Z, NoText), []).
Proof. vm_compute. reflexivity. Qed.

(** C11 *)
Theorem C11_depends_on_alphabet_only : forall t t',
  existsb is_surrogate t = false -> existsb is_surrogate t' = false ->
  filter relevant t = filter relevant t' -> readBase64fromText t = readBase64fromText t'.
Proof.
  intros t t' H H' E. unfold readBase64fromText, b64decode. rewrite H, H'.
  now rewrite <- a2b_filter, E, a2b_filter.
Qed.
Print Assumptions C11_depends_on_alphabet_only.

Theorem C11_result_is_bytes : forall t bs, readBase64fromText t = Ok bs -> Forall is_byte bs.
Proof. exact b64decode_bytes. Qed.
Print Assumptions C11_result_is_bytes.

(** Unpadded text: accepted iff the length is a multiple of 4, and then 3 bytes
    per 4 characters. *)
Theorem C11_unpadded : forall t, forallb is_alpha t = true ->
  ((N.of_nat (length t) mod 4)%N = 0%N <-> exists bs, readBase64fromText t = Ok bs) /\
  forall bs, readBase64fromText t = Ok bs -> (4 * length bs = 3 * length t)%nat.
Proof.
  intros t Ht.
  assert (Hs : existsb is_surrogate t = false).
  { apply b64_text_no_surrogate. unfold b64_text. rewrite forallb_forall in *. intros c Hc.
    apply alpha_relevant. auto. }
  unfold readBase64fromText, b64decode. rewrite Hs. split.
  - exact (a2b_alpha_ok t 0%N 0%N 0%N ltac:(lia) Ht).
  - intros bs E. apply a2b_alpha_len in E; [|lia|assumption]. cbn [N.eqb] in E. lia.
Qed.
Print Assumptions C11_unpadded.

Example C11_ex : forallb is_alpha [65;81;73;68]%N = true /\ readBase64fromText [65;81;73;68]%N = Ok [1;2;3]%N.
Proof. vm_compute. auto. Qed.

(** C12 *)
Theorem C12_every_block_once_in_order : forall handle m bs post,
  Forall (block_ok m) bs -> Forall nonempty bs ->
  (forall b, In b bs -> handle (Z.of_nat (b_idx b)) (b_data b) = true) ->
  Forall (fun l => ~ In LF l /\ ~ is_start m (strip l)) post ->
  dump handle m (concat (map block_text bs) ++ unlines post)
  = Some (map (fun b => (Z.of_nat (b_idx b), b_data b)) bs, Finished).
Proof.
  intros handle m bs post H1 H2 H3 H4.
  rewrite (dump_blocks handle m bs _ H1 H2 H3), (dump_spam handle m post H4). now rewrite app_nil_r.
Qed.
Print Assumptions C12_every_block_once_in_order.

(** An empty block hides everything after it. *)
Theorem C12_empty_block_stops : forall handle m bs b tail,
  Forall (block_ok m) bs -> Forall nonempty bs ->
  (forall b, In b bs -> handle (Z.of_nat (b_idx b)) (b_data b) = true) ->
  block_ok m b -> b_data b = [] ->
  dump handle m (concat (map block_text bs) ++ block_text b ++ tail)
  = Some (map (fun b => (Z.of_nat (b_idx b), b_data b)) bs, Finished).
Proof.
  intros handle m bs b tail H1 H2 H3 H4 H5.
  rewrite (dump_blocks handle m bs _ H1 H2 H3), (dump_empty_block handle m b tail H4 H5).
  now rewrite app_nil_r.
Qed.
Print Assumptions C12_empty_block_stops.

Theorem C12_terminates : forall handle m f, exists r, dump handle m f = Some r.
Proof. intros handle m f. exact (dump_fuel_gen handle m f (S (length f)) (Nat.lt_succ_diag_r _)). Qed.
Print Assumptions C12_terminates.

Example C12_ex : nonempty ex_block /\
  block_ok ex_m (mkB [] 0 [45;66]%N [45;69]%N 1 [] []).
Proof.
  split; [discriminate|]. unfold block_ok, good_marker; cbn [b_start b_stop b_idx b_pre b_k b_data b_lines].
  repeat split; try (exists 45%N; split; [left; reflexivity | reflexivity]);
    try (cbn; intuition discriminate); try (eexists; reflexivity); try lia; try constructor;
    intros [|[|[|j]]] s' e' Hj; cbn; try lia; try discriminate; intros [= <- <-]; discriminate.
Qed.
