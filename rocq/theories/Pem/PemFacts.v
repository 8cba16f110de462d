(** Lemmas about the PEM reader model. *)
From Coq Require Import List NArith ZArith Bool Lia.
From Verif Require Import Pem.Text Pem.Base64 Pem.Pem.
Import ListNotations.

(** ** Splitting a file into lines *)

Fixpoint split_lines (f : text) : list text :=
  match f with
  | [] => []
  | c :: f' => if N.eqb c LF then [c] :: split_lines f'
               else match split_lines f' with [] => [[c]] | l :: ls => (c :: l) :: ls end
  end.

Lemma split_lines_concat f : concat (split_lines f) = f.
Proof.
  induction f as [|c f IH]; cbn; [reflexivity|].
  destruct (N.eqb_spec c LF).
  - cbn. now rewrite IH.
  - destruct (split_lines f) as [|l ls] eqn:E; cbn in *; [now subst|]. now rewrite IH.
Qed.

Lemma split_lines_readline f : f <> [] ->
  split_lines f = fst (readline f) :: split_lines (snd (readline f)).
Proof.
  induction f as [|c f IH]; [congruence|]. intros _. cbn.
  destruct (N.eqb_spec c LF); [reflexivity|].
  destruct f as [|c' f']; [reflexivity|].
  rewrite IH by discriminate. destruct (readline (c' :: f')); reflexivity.
Qed.

Lemma lines_of_split ls f : lines_of ls f -> split_lines f = ls.
Proof.
  induction 1 as [|l Hne Hl|l ls f Hl _ IH].
  - reflexivity.
  - rewrite split_lines_readline by assumption. now rewrite readline_last by assumption.
  - rewrite split_lines_readline by (destruct l; discriminate).
    rewrite readline_line by assumption. cbn. now rewrite IH.
Qed.

Lemma split_lines_of f : lines_of (split_lines f) f.
Proof.
  induction f as [|c f IH]; cbn; [constructor|].
  destruct (N.eqb_spec c LF) as [->|Hc].
  - apply (lines_cons [] _ _); [tauto | assumption].
  - inversion IH as [E|l Hne Hl E|l ls f' Hl Hf E]; subst.
    + constructor; [discriminate|]. cbn. intros [|[]]. congruence.
    + constructor; [discriminate|]. cbn. intros [|]; [congruence | tauto].
    + apply (lines_cons (c :: l)); [|assumption]. cbn. intros [|]; [congruence | tauto].
Qed.

Lemma lines_of_app_rest ls1 ls2 f : lines_of (ls1 ++ ls2) f -> lines_of ls2 (concat ls2).
Proof.
  revert f; induction ls1 as [|l ls1 IH]; intros f H.
  - cbn in H. pose proof (lines_of_split _ _ H) as E. rewrite <- E at 2. now rewrite split_lines_concat.
  - cbn in H. inversion H as [E|l' Hne Hl E1 E2|l' ls f' Hl Hf E1 E2]; subst.
    + destruct ls1; [|discriminate]. cbn in *. subst. constructor.
    + eauto.
Qed.

Lemma unlines_split ls tail :
  Forall (fun l => ~ In LF l) ls ->
  split_lines (unlines ls ++ tail) = map (fun l => l ++ [LF]) ls ++ split_lines tail.
Proof.
  induction 1 as [|l ls Hl _ IH]; [reflexivity|].
  change (unlines (l :: ls)) with ((l ++ [LF]) ++ unlines ls). cbn [map app].
  rewrite <- !app_assoc. cbn [app].
  rewrite split_lines_readline by (destruct l; discriminate).
  rewrite readline_line by assumption. cbn [fst snd]. now rewrite IH.
Qed.

(** ** The loop on lines *)

Fixpoint run (m : markers) (st : locals) (ls : list text) : res (Z * substrate) * list text :=
  match ls with
  | [] => (Ok (idx st, NoText), [])
  | l :: ls' => match body m l st with
                | Continue st' => run m st' ls'
                | Leave r => (r, ls')
                end
  end.

Lemma loop_run fuel m st f : (length f < fuel)%nat ->
  loop fuel m st f = Some (fst (run m st (split_lines f)), concat (snd (run m st (split_lines f)))).
Proof.
  revert m st f; induction fuel as [|fuel IH]; intros m st f Hf; [lia|].
  cbn [loop]. destruct f as [|c f0]; [reflexivity|].
  remember (c :: f0) as f eqn:Ef. assert (Hne : f <> []) by (subst; discriminate).
  rewrite (split_lines_readline f Hne).
  pose proof (readline_len f Hne) as Hlen.
  pose proof (proj1 (readline_nil f)) as Hnil.
  destruct (readline f) as [line f']. cbn [fst snd] in *.
  destruct line as [|x line]; [exfalso; apply Hne; auto|].
  cbn [run]. destruct (body m (x :: line) st) as [st'|r].
  - apply IH. lia.
  - cbn [fst snd]. now rewrite split_lines_concat.
Qed.

(** The fuel is always sufficient. *)
Lemma loop_fuel m st f : exists r, loop (S (length f)) m st f = Some r.
Proof. rewrite loop_run by lia. eauto. Qed.

Definition init : locals := mkL (-1) [] stSpam.

Lemma read_run m f :
  readPemBlocksFromFile m f =
    (fst (run m init (split_lines f)), concat (snd (run m init (split_lines f)))).
Proof. unfold readPemBlocksFromFile. rewrite loop_run by lia. reflexivity. Qed.

(** ** Marker dictionaries *)

Lemma dict_get_enum l : forall n k,
  match dict_get (enum_swap n l) k with
  | Some v => exists i, v = (n + Z.of_nat i)%Z /\ nth_error l i = Some k /\
                        forall j, (i < j)%nat -> nth_error l j <> Some k
  | None => forall j, nth_error l j <> Some k
  end.
Proof.
  induction l as [|x l IH]; intros n k; cbn [enum_swap dict_get].
  - intros [|j]; discriminate.
  - specialize (IH (n + 1)%Z k).
    destruct (dict_get (enum_swap (n + 1) l) k) as [v|].
    + destruct IH as (i & -> & Hi & Hj). exists (S i). split; [lia|]. split; [exact Hi|].
      intros [|j] Hlt; [lia|]. apply Hj. lia.
    + destruct (text_eqb k x) eqn:E.
      * apply text_eqb_eq in E; subst. exists O. split; [lia|]. split; [reflexivity|].
        intros [|j] Hlt; [lia|]. apply IH.
      * apply text_eqb_neq in E. intros [|j]; cbn; [congruence | apply IH].
Qed.

Lemma nth_error_map_fst (m : markers) i s :
  nth_error (map fst m) i = Some s <-> exists e, nth_error m i = Some (s, e).
Proof.
  revert i; induction m as [|[a b] m IH]; intros [|i]; cbn.
  - split; [discriminate | intros [e H]; discriminate].
  - split; [discriminate | intros [e H]; discriminate].
  - split; [intros [= ->]; eauto | intros [e [= -> ->]]; reflexivity].
  - apply IH.
Qed.

Lemma nth_error_map_snd (m : markers) i e :
  nth_error (map snd m) i = Some e <-> exists s, nth_error m i = Some (s, e).
Proof.
  revert i; induction m as [|[a b] m IH]; intros [|i]; cbn.
  - split; [discriminate | intros [x H]; discriminate].
  - split; [discriminate | intros [x H]; discriminate].
  - split; [intros [= ->]; eauto | intros [x [= -> ->]]; reflexivity].
  - apply IH.
Qed.

Lemma start_get m s :
  match dict_get (startMarkers m) s with
  | Some v => exists i, v = Z.of_nat i /\ opens m s i
  | None => ~ is_start m s
  end.
Proof.
  pose proof (dict_get_enum (map fst m) 0 s) as H. unfold startMarkers.
  destruct (dict_get _ s) as [v|].
  - destruct H as (i & -> & Hi & Hj). exists i. split; [lia|]. split.
    + now apply nth_error_map_fst.
    + intros j s' e' Hlt Hn ->. apply (Hj j Hlt). apply nth_error_map_fst. eauto.
  - intros [e He]. apply In_nth_error in He as [i Hi].
    apply (H i). apply nth_error_map_fst. eauto.
Qed.

Lemma stop_get m e :
  match dict_get (stopMarkers m) e with
  | Some v => exists i, v = Z.of_nat i /\ closes m e i
  | None => forall i, ~ closes m e i
  end.
Proof.
  pose proof (dict_get_enum (map snd m) 0 e) as H. unfold stopMarkers.
  destruct (dict_get _ e) as [v|].
  - destruct H as (i & -> & Hi & Hj). exists i. split; [lia|]. split.
    + now apply nth_error_map_snd.
    + intros j s' e' Hlt Hn ->. apply (Hj j Hlt). apply nth_error_map_snd. eauto.
  - intros i [[s Hs] _]. apply (H i). apply nth_error_map_snd. eauto.
Qed.

Lemma opens_fun m s i j : opens m s i -> opens m s j -> i = j.
Proof.
  intros [[e He] Hi] [[e' He'] Hj].
  destruct (lt_eq_lt_dec i j) as [[H|H]|H]; [|assumption|].
  - exfalso. eapply Hi; eauto.
  - exfalso. eapply Hj; eauto.
Qed.

Lemma closes_fun m s i j : closes m s i -> closes m s j -> i = j.
Proof.
  intros [[e He] Hi] [[e' He'] Hj].
  destruct (lt_eq_lt_dec i j) as [[H|H]|H]; [|assumption|].
  - exfalso. eapply Hi; eauto.
  - exfalso. eapply Hj; eauto.
Qed.

Lemma opens_is_start m s i : opens m s i -> is_start m s.
Proof. intros [[e He] _]. exists e. eapply nth_error_In; eauto. Qed.

Lemma opens_get m s i : opens m s i -> dict_get (startMarkers m) s = Some (Z.of_nat i).
Proof.
  intros H. pose proof (start_get m s) as G. destruct (dict_get _ s) as [v|].
  - destruct G as (j & -> & Hj). now rewrite (opens_fun _ _ _ _ H Hj).
  - exfalso. apply G. eapply opens_is_start; eauto.
Qed.

Lemma stop_test m e i :
  match dict_get (stopMarkers m) e with Some j => Z.eqb j (Z.of_nat i) | None => false end = true
  <-> closes m e i.
Proof.
  pose proof (stop_get m e) as G. destruct (dict_get _ e) as [v|].
  - destruct G as (j & -> & Hj). rewrite Z.eqb_eq, Nat2Z.inj_iff. split.
    + intros <-; assumption.
    + intros H; eapply closes_fun; eauto.
  - split; [discriminate|]. intros H; exfalso; eapply G; eauto.
Qed.

(** ** Phases of the loop *)

Lemma run_spam m pre ls :
  Forall (fun l => ~ is_start m (strip l)) pre -> run m init (pre ++ ls) = run m init ls.
Proof.
  induction 1 as [|l pre Hl _ IH]; [reflexivity|]. cbn [app run].
  assert (E : body m l init = Continue init).
  { unfold body, init. cbn [state].
    pose proof (start_get m (strip l)) as G. destruct (dict_get _ (strip l)) as [v|].
    - destruct G as (i & _ & Hi). exfalso. apply Hl. eapply opens_is_start; eauto.
    - reflexivity. }
  now rewrite E.
Qed.

Lemma run_start m s i ls :
  opens m (strip s) i -> run m init (s :: ls) = run m (mkL (Z.of_nat i) [] stHam) ls.
Proof.
  intros H. cbn [run]. unfold body, init. cbn [state]. now rewrite (opens_get _ _ _ H).
Qed.

Lemma run_ham m i bdy : forall acc ls,
  Forall (fun l => ~ closes m (strip l) i) bdy ->
  run m (mkL (Z.of_nat i) acc stHam) (bdy ++ ls)
  = run m (mkL (Z.of_nat i) (acc ++ map strip bdy) stHam) ls.
Proof.
  induction bdy as [|l bdy IH]; intros acc ls H.
  - cbn. now rewrite app_nil_r.
  - inversion H as [|? ? Hl Hb]; subst. cbn [app run].
    unfold body. cbn [state idx certLines].
    destruct (match dict_get (stopMarkers m) (strip l) with Some j => Z.eqb j (Z.of_nat i) | None => false end) eqn:E.
    + apply stop_test in E. contradiction.
    + cbn [state]. rewrite IH by assumption. cbn [map]. now rewrite <- app_assoc.
Qed.

Lemma run_stop m i acc e ls : closes m (strip e) i ->
  run m (mkL (Z.of_nat i) acc stHam) (e :: ls)
  = (match decode_lines acc with Ok bs => Ok (Z.of_nat i, Bytes (concat bs)) | Err x => Err x end, ls).
Proof.
  intros H. cbn [run]. unfold body. cbn [state idx certLines].
  rewrite (proj2 (stop_test m (strip e) i) H). cbn [state idx certLines].
  now destruct (decode_lines acc).
Qed.

Lemma decoded_lines ls :
  decoded ls (match decode_lines ls with Ok bs => Ok (concat bs) | Err e => Err e end).
Proof.
  induction ls as [|l ls IH]; cbn; [constructor|].
  destruct (b64decode l) as [b|e] eqn:E; [|now constructor].
  destruct (decode_lines ls) as [bs|e]; cbn; [now constructor | econstructor; eauto].
Qed.

Lemma decoded_fun ls r r' : decoded ls r -> decoded ls r' -> r = r'.
Proof.
  intros H; revert r'; induction H; intros r' H'; inversion H'; subst; try congruence.
  - f_equal. f_equal; [congruence|]. match goal with H : decoded ls (Ok _) |- _ => apply IHdecoded in H; congruence end.
  - match goal with H : decoded ls (Err _) |- _ => apply IHdecoded in H; congruence end.
  - match goal with H : decoded ls (Ok _) |- _ => apply IHdecoded in H; congruence end.
  - match goal with H : decoded ls (Err _) |- _ => apply IHdecoded in H; congruence end.
Qed.

(** ** First start / first stop decomposition *)

Lemma is_start_dec m s : {is_start m s} + {~ is_start m s}.
Proof.
  pose proof (start_get m s) as G. destruct (dict_get _ s) as [v|]; [|now right].
  left. destruct G as (i & _ & Hi). eapply opens_is_start; eauto.
Qed.

Lemma closes_dec m s i : {closes m s i} + {~ closes m s i}.
Proof.
  destruct (match dict_get (stopMarkers m) s with Some j => Z.eqb j (Z.of_nat i) | None => false end) eqn:E.
  - left. now apply stop_test.
  - right. intros H. apply stop_test in H. congruence.
Qed.

Lemma first_split {A} (P : A -> Prop) (dec : forall a, {P a} + {~ P a}) ls :
  Forall (fun a => ~ P a) ls \/
  exists pre a post, ls = pre ++ a :: post /\ Forall (fun a => ~ P a) pre /\ P a.
Proof.
  induction ls as [|a ls IH]; [left; constructor|].
  destruct (dec a) as [Ha|Ha].
  - right. exists [], a, ls. auto.
  - destruct IH as [IH|(pre & b & post & -> & H1 & H2)].
    + left. now constructor.
    + right. exists (a :: pre), b, post. split; [reflexivity|]. split; [now constructor | assumption].
Qed.

Lemma first_unique {A} (P : A -> Prop) pre a post pre' a' post' :
  pre ++ a :: post = pre' ++ a' :: post' ->
  Forall (fun x => ~ P x) pre -> P a -> Forall (fun x => ~ P x) pre' -> P a' ->
  pre = pre' /\ a = a' /\ post = post'.
Proof.
  revert pre'; induction pre as [|x pre IH]; intros [|x' pre'] E H1 Ha H2 Ha'; cbn in E.
  - inversion E; auto.
  - inversion E; subst. inversion H2; subst. contradiction.
  - inversion E; subst. inversion H1; subst. contradiction.
  - inversion E; subst. inversion H1; inversion H2; subst.
    destruct (IH pre') as (-> & -> & ->); auto.
Qed.

Lemma first_none {A} (P : A -> Prop) pre a post :
  Forall (fun x => ~ P x) (pre ++ a :: post) -> P a -> False.
Proof. intros H Ha. apply Forall_app in H as [_ H]. inversion H; contradiction. Qed.

(** ** Refinement *)

Lemma run_spec m ls : pem_spec m ls (fst (run m init ls)) (snd (run m init ls)).
Proof.
  destruct (first_split (fun l => is_start m (strip l)) (fun l => is_start_dec m (strip l)) ls)
    as [H|(pre & s & post & -> & Hpre & Hs)].
  - pose proof (run_spam m ls [] H) as E. rewrite app_nil_r in E. rewrite E. cbn.
    now constructor.
  - rewrite run_spam by assumption.
    pose proof (start_get m (strip s)) as G. destruct (dict_get _ (strip s)) as [v|]; [|contradiction].
    destruct G as (i & _ & Hi). rewrite (run_start _ _ _ _ Hi).
    destruct (first_split (fun l => closes m (strip l) i) (fun l => closes_dec m (strip l) i) post)
      as [Hb|(bdy & e & rest & -> & Hb & He)].
    + pose proof (run_ham m i post [] [] Hb) as E. rewrite app_nil_r in E. rewrite E. cbn.
      now constructor.
    + rewrite run_ham, (run_stop _ _ _ _ _ He) by assumption. cbn [fst snd app].
      pose proof (decoded_lines (map strip bdy)) as D.
      pose proof (spec_block m pre s bdy e rest i _ Hpre Hi Hb He D) as S.
      destruct (decode_lines (map strip bdy)); exact S.
Qed.

Lemma pem_spec_fun m ls r rest r' rest' :
  pem_spec m ls r rest -> pem_spec m ls r' rest' -> r = r' /\ rest = rest'.
Proof.
  intros H H'.
  inversion H as [ls0 Hn|pre s bdy i Hp Hs Hb|pre s bdy e rst i d Hp Hs Hb He Hd]; subst;
  inversion H' as [ls0' Hn'|pre' s' bdy' i' Hp' Hs' Hb' E1|pre' s' bdy' e' rst' i' d' Hp' Hs' Hb' He' Hd' E1]; subst; auto;
  try (exfalso; eapply (first_none (fun l => is_start m (strip l)));
       [eassumption | cbv beta; eapply opens_is_start; eassumption]).
  - apply (first_unique (fun l => is_start m (strip l))) in E1; auto;
      try (cbv beta; eapply opens_is_start; eassumption).
    destruct E1 as (_ & -> & _). now rewrite (opens_fun _ _ _ _ Hs Hs').
  - apply (first_unique (fun l => is_start m (strip l))) in E1; auto;
      try (cbv beta; eapply opens_is_start; eassumption).
    destruct E1 as (_ & -> & <-). rewrite (opens_fun _ _ _ _ Hs' Hs) in *.
    exfalso. eapply (first_none (fun l => closes m (strip l) i)); eassumption.
  - apply (first_unique (fun l => is_start m (strip l))) in E1; auto;
      try (cbv beta; eapply opens_is_start; eassumption).
    destruct E1 as (_ & -> & ->). rewrite (opens_fun _ _ _ _ Hs' Hs) in *.
    exfalso. eapply (first_none (fun l => closes m (strip l) i)); eassumption.
  - apply (first_unique (fun l => is_start m (strip l))) in E1; auto;
      try (cbv beta; eapply opens_is_start; eassumption).
    destruct E1 as (_ & -> & E1). rewrite (opens_fun _ _ _ _ Hs' Hs) in *.
    apply (first_unique (fun l => closes m (strip l) i)) in E1; auto.
    destruct E1 as (-> & -> & ->). split; [|reflexivity].
    now rewrite (decoded_fun _ _ _ Hd Hd').
Qed.

(** The reader does what the specification says, and leaves the unread lines. *)
Lemma read_spec m f ls : lines_of ls f ->
  exists rest, pem_spec m ls (fst (readPemBlocksFromFile m f)) rest /\
               snd (readPemBlocksFromFile m f) = concat rest.
Proof.
  intros H. rewrite read_run, (lines_of_split _ _ H). cbn [fst snd].
  exists (snd (run m init ls)). split; [apply run_spec | reflexivity].
Qed.

Lemma spec_read m f ls r rest : lines_of ls f -> pem_spec m ls r rest ->
  readPemBlocksFromFile m f = (r, concat rest).
Proof.
  intros H S. destruct (read_spec m f ls H) as (rest' & S' & E).
  destruct (pem_spec_fun _ _ _ _ _ _ S S') as [-> ->].
  rewrite <- E. now destruct (readPemBlocksFromFile m f).
Qed.

(** ** Base64 payload wrapped at a multiple of four *)

Lemma b64encode_app d1 d2 : (exists k, length d1 = 3 * k)%nat ->
  b64encode (d1 ++ d2) = b64encode d1 ++ b64encode d2.
Proof.
  induction d1 as [|a|a b|a b c d1 IH] using bytes3_ind; intros [k Hk].
  - reflexivity.
  - cbn in Hk; lia.
  - cbn in Hk; lia.
  - change ((a :: b :: c :: d1) ++ d2) with (a :: b :: c :: (d1 ++ d2)).
    cbn [b64encode]. rewrite IH; [reflexivity|]. exists (k - 1)%nat. cbn in Hk. lia.
Qed.

Lemma b64encode_length d : (length (b64encode d) = 4 * ((length d + 2) / 3))%nat.
Proof.
  induction d as [|a|a b|a b c d IH] using bytes3_ind; try reflexivity.
  cbn [b64encode length]. rewrite IH.
  replace (S (S (S (length d))) + 2)%nat with (length d + 2 + 1 * 3)%nat by lia.
  rewrite Nat.div_add by lia. lia.
Qed.

Lemma wrapped_decoded k d ls : (0 < k)%nat -> Forall is_byte d ->
  wrapped (4 * k) (b64encode d) ls -> decoded ls (Ok d) /\ Forall (fun l => b64_text l = true) ls.
Proof.
  intros Hk Hd Hw. remember (b64encode d) as t eqn:Et. revert d Hd Et.
  induction Hw as [|t Hne Hlen|l t ls Hl Hne Hw IH]; intros d Hd Et.
  - destruct d as [|a [|b [|c d]]]; try discriminate. split; constructor.
  - subst. split.
    + rewrite <- (app_nil_r d). rewrite app_nil_r at 1.
      apply dec_ok; [now apply b64decode_encode | constructor].
    + constructor; [now apply b64encode_relevant | constructor].
  - assert (Hlt : (4 * k < length (b64encode d))%nat).
    { rewrite <- Et, app_length, Hl. destruct t; [congruence|cbn; lia]. }
    rewrite b64encode_length in Hlt.
    assert (Hd3 : (3 * k <= length d)%nat).
    { assert (k < (length d + 2) / 3)%nat by lia.
      pose proof (Nat.div_mod (length d + 2) 3 ltac:(lia)).
      pose proof (Nat.mod_upper_bound (length d + 2) 3 ltac:(lia)). lia. }
    rewrite <- (firstn_skipn (3 * k) d) in Et.
    assert (Hf : length (firstn (3 * k) d) = (3 * k)%nat) by (rewrite firstn_length; lia).
    rewrite b64encode_app in Et by (exists k; assumption).
    assert (Hle : length (b64encode (firstn (3 * k) d)) = (4 * k)%nat).
    { rewrite b64encode_length, Hf. f_equal.
      replace (3 * k + 2)%nat with (2 + k * 3)%nat by lia. rewrite Nat.div_add by lia. reflexivity. }
    assert (El : l = b64encode (firstn (3 * k) d) /\ t = b64encode (skipn (3 * k) d)).
    { apply (f_equal (firstn (4 * k))) in Et as E1. apply (f_equal (skipn (4 * k))) in Et as E2.
      rewrite !firstn_app, !Hl, !Hle, Nat.sub_diag, !firstn_O, !app_nil_r, !firstn_all2 in E1 by lia.
      rewrite !skipn_app, !Hl, !Hle, Nat.sub_diag, !skipn_O, !skipn_all2 in E2 by lia.
      auto. }
    destruct El as [-> ->].
    assert (Hd1 : Forall is_byte (firstn (3 * k) d) /\ Forall is_byte (skipn (3 * k) d)).
    { apply Forall_app. now rewrite firstn_skipn. }
    destruct Hd1 as [Hd1 Hd2].
    destruct (IH _ Hd2 eq_refl) as [D F]. split.
    + rewrite <- (firstn_skipn (3 * k) d) at 2. apply dec_ok; [now apply b64decode_encode | exact D].
    + constructor; [now apply b64encode_relevant | exact F].
Qed.

Lemma wrapped_exists w t : (0 < w)%nat -> exists ls, wrapped w t ls.
Proof.
  intros Hw. remember (length t) as n eqn:En. revert t En.
  induction n as [n IH] using lt_wf_ind; intros t En.
  destruct t as [|c t]; [eexists; constructor|].
  destruct (le_gt_dec (length (c :: t)) w) as [Hle|Hgt].
  - eexists. constructor; [discriminate | assumption].
  - destruct (IH (length (skipn w (c :: t))) ) with (t := skipn w (c :: t)) as [ls Hls].
    + rewrite skipn_length, En. lia.
    + reflexivity.
    + exists (firstn w (c :: t) :: ls). rewrite <- (firstn_skipn w (c :: t)) at 1.
      constructor; [rewrite firstn_length; lia | | assumption].
      intros E. apply (f_equal (@length _)) in E. rewrite skipn_length in E. cbn [length] in *. lia.
Qed.

(** Lines of a payload are untouched by [strip]. *)
Lemma map_strip_payload ls : Forall (fun l => b64_text l = true) ls ->
  map strip (map (fun l => l ++ [LF]) ls) = ls.
Proof.
  induction 1 as [|l ls Hl _ IH]; cbn [map]; [reflexivity|].
  rewrite strip_LF, b64_text_strip, IH by assumption. reflexivity.
Qed.

Lemma good_marker_not_payload s l : good_marker s -> b64_text l = true -> l <> s.
Proof.
  intros (_ & _ & c & Hc & Hr) Hl ->. unfold b64_text in Hl. rewrite forallb_forall in Hl.
  specialize (Hl c Hc). congruence.
Qed.

(** The text of the i-th pair, [opens]/[closes] give them back. *)
Lemma opens_nth m s i : opens m s i -> exists e, nth_error m i = Some (s, e).
Proof. intros [H _]. exact H. Qed.

Lemma closes_unique_text m s s' i : closes m s i -> closes m s' i -> s = s'.
Proof. intros [[x H] _] [[x' H'] _]. congruence. Qed.

(** One armoured block, generic body lines. *)
Lemma read_block m pre s e bdy tail i d :
  ~ In LF s -> ~ In LF e -> strip s = s -> strip e = e ->
  opens m s i -> closes m e i ->
  Forall (fun l => ~ In LF l /\ ~ is_start m (strip l)) pre ->
  Forall (fun l => ~ In LF l /\ strip l <> e) bdy ->
  decoded (map strip bdy) d ->
  readPemBlocksFromFile m (unlines (pre ++ s :: bdy ++ [e]) ++ tail)
  = (match d with Ok b => Ok (Z.of_nat i, Bytes b) | Err x => Err x end, tail).
Proof.
  intros Hs He Ss Se Ho Hc Hpre Hbdy Hd.
  assert (HL : Forall (fun l => ~ In LF l) (pre ++ s :: bdy ++ [e])).
  { apply Forall_app. split; [eapply Forall_impl; [|exact Hpre]; cbv beta; tauto|].
    constructor; [assumption|]. apply Forall_app. split; [eapply Forall_impl; [|exact Hbdy]; cbv beta; tauto|].
    constructor; [assumption | constructor]. }
  rewrite <- (split_lines_concat tail) at 2.
  eapply spec_read; [apply split_lines_of|].
  rewrite unlines_split by assumption.
  rewrite map_app. cbn [map]. rewrite map_app. cbn [map].
  rewrite <- app_assoc. cbn [app]. rewrite <- app_assoc. cbn [app].
  apply (spec_block m (map (fun l => l ++ [LF]) pre) (s ++ [LF]) (map (fun l => l ++ [LF]) bdy) (e ++ [LF])
           (split_lines tail) i d).
  - apply Forall_map. eapply Forall_impl; [|exact Hpre]. cbv beta. intros l [_ H]. now rewrite strip_LF.
  - rewrite strip_LF. now rewrite Ss.
  - apply Forall_map. eapply Forall_impl; [|exact Hbdy]. cbv beta. intros l [_ H].
    rewrite strip_LF. intros C. apply H. eapply closes_unique_text; eauto.
  - rewrite strip_LF. now rewrite Se.
  - rewrite map_map. erewrite map_ext; [exact Hd|]. intros l. apply strip_LF.
Qed.

(** Armour round trip. *)
Lemma armour_roundtrip m pre s e k d ls tail i :
  good_marker s -> good_marker e -> opens m s i -> closes m e i ->
  Forall (fun l => ~ In LF l /\ ~ is_start m (strip l)) pre ->
  (0 < k)%nat -> Forall is_byte d -> wrapped (4 * k) (b64encode d) ls ->
  readPemBlocksFromFile m (unlines (pre ++ s :: ls ++ [e]) ++ tail)
  = (Ok (Z.of_nat i, Bytes d), tail).
Proof.
  intros Gs Ge Ho Hc Hpre Hk Hd Hw.
  destruct (wrapped_decoded k d ls Hk Hd Hw) as [D F].
  apply (read_block m pre s e ls tail i (Ok d)); try assumption; try apply Gs; try apply Ge.
  - eapply Forall_impl; [|exact F]. cbv beta. intros l Hl. split; [now apply b64_text_no_LF|].
    rewrite b64_text_strip by assumption. now apply good_marker_not_payload.
  - replace (map strip ls) with ls; [exact D|].
    clear - F. induction F as [|l ls Hl _ IH]; cbn; [reflexivity|]. now rewrite <- IH, b64_text_strip.
Qed.

(** ** Width not a multiple of four *)

Lemma b64encode_prefix_alpha d l t : Forall is_byte d -> b64encode d = l ++ t -> (2 < length t)%nat ->
  forallb is_alpha l = true.
Proof.
  revert l t; induction d as [|a|a b|a b c d IH] using bytes3_ind; intros l t Hd E Ht;
    repeat match goal with H : Forall _ (_ :: _) |- _ => inversion H; clear H; subst end;
    unfold is_byte in *.
  - destruct l; [reflexivity | discriminate].
  - cbn [b64encode] in E. destruct l as [|x1 [|x2 l]]; cbn in E.
    + reflexivity.
    + inversion E; subst. cbn. rewrite b64char_alpha; [reflexivity | now apply bnd_hi].
    + inversion E; subst. destruct l as [|? [|? [|]]]; cbn in *; try lia.
      all: match goal with H : _ = _ |- _ => inversion H; subst end; cbn in *; lia.
  - cbn [b64encode] in E. destruct l as [|x1 [|x2 l]]; cbn in E.
    + reflexivity.
    + inversion E; subst. cbn. rewrite b64char_alpha; [reflexivity | now apply bnd_hi].
    + inversion E; subst. destruct l as [|? [|? [|]]]; cbn in *; try lia.
      all: match goal with H : _ = _ |- _ => inversion H; subst end; cbn in *; lia.
  - cbn [b64encode] in E.
    destruct l as [|x1 [|x2 [|x3 [|x4 l]]]]; cbn in E; inversion E; subst; cbn [forallb];
      rewrite ?b64char_alpha by first [now apply bnd_hi | now apply bnd_2 | now apply bnd_3 | apply bnd_4];
      cbn [andb]; try reflexivity.
    eapply IH; eauto.
Qed.

Lemma wrapped_bad_width w d ls : (w mod 4 <> 0)%nat -> Forall is_byte d ->
  wrapped w (b64encode d) ls -> (w + 2 < length (b64encode d))%nat ->
  exists e, decoded ls (Err e).
Proof.
  intros Hw Hd Hwr Hlen.
  inversion Hwr as [E|t Hne Hl E|l t ls' Hl Hne Hls E]; subst.
  - rewrite <- E in Hlen. cbn in Hlen. lia.
  - lia.
  - assert (Ht : (2 < length t)%nat).
    { rewrite <- E, app_length in Hlen. lia. }
    pose proof (b64encode_prefix_alpha d l t Hd (eq_sym E) Ht) as Ha.
    destruct (b64decode l) as [b|e] eqn:Eb; [|exists e; now constructor].
    exfalso. unfold b64decode in Eb. destruct (existsb is_surrogate l); [discriminate|].
    assert (Hex : exists bs, a2b 0 0 0 l = Ok bs) by eauto.
    apply a2b_alpha_ok in Hex; [|lia|assumption].
    apply Hw. apply (f_equal N.to_nat) in Hex.
    rewrite N.add_0_l, N2Nat.inj_mod, Nat2N.id in Hex. exact Hex.
Qed.

(** ** Concatenation equals whole-text decoding for good widths *)

Lemma filter_relevant_unlines ls : Forall (fun l => b64_text l = true) ls ->
  filter relevant (unlines ls) = concat ls.
Proof.
  induction 1 as [|l ls Hl _ IH]; [reflexivity|].
  change (unlines (l :: ls)) with ((l ++ [LF]) ++ unlines ls).
  rewrite !filter_app. change (filter relevant [LF]) with (@nil N). rewrite app_nil_r, IH. cbn [concat].
  f_equal. unfold b64_text in Hl. clear - Hl. induction l as [|c l IH]; cbn in *; [reflexivity|].
  apply andb_true_iff in Hl as [-> Hl]. now rewrite IH.
Qed.

Lemma wrapped_concat w t ls : wrapped w t ls -> concat ls = t.
Proof. induction 1; cbn; rewrite ?app_nil_r; congruence. Qed.

(** ** Progress *)

Lemma run_suffix m ls : forall st, exists n, snd (run m st ls) = skipn n ls /\ (ls <> [] -> 0 < n)%nat.
Proof.
  induction ls as [|l ls IH]; intros st; cbn [run].
  - exists O. split; [reflexivity | congruence].
  - destruct (body m l st).
    + destruct (IH l0) as (n & -> & _). exists (S n). split; [reflexivity | lia].
    + exists 1%nat. split; [reflexivity | lia].
Qed.

Lemma read_progress m f ls : lines_of ls f ->
  exists n, snd (readPemBlocksFromFile m f) = concat (skipn n ls) /\ (f <> [] -> (0 < n)%nat).
Proof.
  intros H. rewrite read_run, (lines_of_split _ _ H). cbn [snd].
  destruct (run_suffix m ls init) as (n & -> & Hn). exists n. split; [reflexivity|].
  intros Hf. apply Hn. inversion H; subst; congruence.
Qed.

(** ** White space *)

Lemma body_strip m l l' st : strip l = strip l' -> body m l st = body m l' st.
Proof. intros E. unfold body. now rewrite E. Qed.

Lemma run_strip m ls ls' : Forall2 (fun a b => strip a = strip b) ls ls' -> forall st,
  fst (run m st ls) = fst (run m st ls') /\
  exists n, snd (run m st ls) = skipn n ls /\ snd (run m st ls') = skipn n ls'.
Proof.
  induction 1 as [|a b ls ls' Hab _ IH]; intros st; cbn [run].
  - split; [reflexivity | exists O; auto].
  - rewrite <- (body_strip m a b st Hab). destruct (body m a st).
    + destruct (IH l) as (E & n & E1 & E2). split; [exact E|]. exists (S n). auto.
    + split; [reflexivity|]. exists 1%nat. auto.
Qed.

Lemma read_strip m f f' ls ls' : lines_of ls f -> lines_of ls' f' ->
  Forall2 (fun a b => strip a = strip b) ls ls' ->
  fst (readPemBlocksFromFile m f) = fst (readPemBlocksFromFile m f') /\
  exists n, snd (readPemBlocksFromFile m f) = concat (skipn n ls) /\
            snd (readPemBlocksFromFile m f') = concat (skipn n ls').
Proof.
  intros H H' HF. rewrite !read_run, (lines_of_split _ _ H), (lines_of_split _ _ H'). cbn [fst snd].
  destruct (run_strip m ls ls' HF init) as (E & n & -> & ->). split; [exact E|]. eauto.
Qed.

(** ** Successive calls *)

(** [n] successive calls on one file object: results and final file. *)
Fixpoint calls (n : nat) (m : markers) (f : text) : list (res (Z * substrate)) * text :=
  match n with
  | O => ([], f)
  | S n' => let (r, f') := readPemBlocksFromFile m f in
            let (rs, f'') := calls n' m f' in (r :: rs, f'')
  end.

(** One armoured block with the text before it. *)
Record block := mkB { b_pre : list text; b_idx : nat; b_start : text; b_stop : text;
                      b_k : nat; b_data : bytes; b_lines : list text }.

Definition block_ok (m : markers) (b : block) : Prop :=
  good_marker (b_start b) /\ good_marker (b_stop b) /\
  opens m (b_start b) (b_idx b) /\ closes m (b_stop b) (b_idx b) /\
  Forall (fun l => ~ In LF l /\ ~ is_start m (strip l)) (b_pre b) /\
  (0 < b_k b)%nat /\ Forall is_byte (b_data b) /\
  wrapped (4 * b_k b) (b64encode (b_data b)) (b_lines b).

Definition block_text (b : block) : text :=
  unlines (b_pre b ++ b_start b :: b_lines b ++ [b_stop b]).

Lemma read_at_end m : readPemBlocksFromFile m [] = (Ok ((-1)%Z, NoText), []).
Proof. reflexivity. Qed.

Lemma read_spam_only m f ls : lines_of ls f -> Forall (fun l => ~ is_start m (strip l)) ls ->
  readPemBlocksFromFile m f = (Ok ((-1)%Z, NoText), []).
Proof.
  intros H HF. apply (spec_read m f ls _ [] H). now constructor.
Qed.

Lemma calls_end m n : calls n m [] = (repeat (Ok ((-1)%Z, NoText)) n, []).
Proof.
  induction n as [|n IH]; [reflexivity|]. cbn [calls]. rewrite read_at_end, IH. reflexivity.
Qed.

Lemma calls_blocks m bs post n :
  Forall (block_ok m) bs ->
  Forall (fun l => ~ In LF l /\ ~ is_start m (strip l)) post ->
  calls (length bs + S n) m (concat (map block_text bs) ++ unlines post)
  = (map (fun b => Ok (Z.of_nat (b_idx b), Bytes (b_data b))) bs
       ++ repeat (Ok ((-1)%Z, NoText)) (S n), []).
Proof.
  intros Hbs Hpost. induction Hbs as [|b bs Hb _ IH]; cbn [length Nat.add map concat app].
  - cbn [calls]. 
    assert (E : readPemBlocksFromFile m (unlines post) = (Ok ((-1)%Z, NoText), [])).
    { rewrite <- (app_nil_r (unlines post)). eapply read_spam_only; [apply split_lines_of|].
      rewrite unlines_split by (eapply Forall_impl; [|exact Hpost]; cbv beta; tauto).
      cbn. rewrite app_nil_r. apply Forall_map. eapply Forall_impl; [|exact Hpost]. cbv beta.
      intros l [_ H]. now rewrite strip_LF. }
    rewrite E, calls_end. reflexivity.
  - cbn [calls]. rewrite <- app_assoc. unfold block_text at 1.
    destruct Hb as (G1 & G2 & Ho & Hc & Hp & Hk & Hd & Hw).
    rewrite (armour_roundtrip m (b_pre b) (b_start b) (b_stop b) (b_k b) (b_data b) (b_lines b) _ (b_idx b))
      by assumption.
    rewrite IH. reflexivity.
Qed.
