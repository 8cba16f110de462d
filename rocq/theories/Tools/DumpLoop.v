(** The read loop shared by tools/x509dump.py:29-49, tools/pkcs10dump.py:29-49
    and tools/pkcs1dump.py:29-54:

      while True:
          idx, substrate = pem.readPemBlocksFromFile(sys.stdin, ...)
          if not substrate:
              break
          ... decode, print, assert re-encoding ...
          certCnt += 1
*)
From Coq Require Import List NArith ZArith Bool Lia.
From Verif Require Import Pem.Text Pem.Base64 Pem.Pem Pem.PemFacts.
Import ListNotations.

(** How the program ends: normally, by an exception of the PEM reader, or by an
    exception (decoding error, failed assertion) while handling a block. *)
Inductive outcome := Finished | PemError (e : exn) | HandlerError.

(** [handle idx data] = true iff decoding, printing and the assertions of the
    loop body succeed (the body of the tool is a parameter here).
    tools/x509dump.py:29-49.  Result: blocks handled so far, how it ended. *)
Fixpoint dump_go (fuel : nat) (handle : Z -> bytes -> bool) (m : markers) (f : text)
  : option (list (Z * bytes) * outcome) :=
  match fuel with
  | O => None
  | S fuel' =>
      match readPemBlocksFromFile m f with
      | (Err e, _) => Some ([], PemError e)
      | (Ok (i, s), f') =>
          if truthy s then
            if handle i (octets s) then
              match dump_go fuel' handle m f' with
              | Some (done, o) => Some ((i, octets s) :: done, o)
              | None => None
              end
            else Some ([], HandlerError)
          else Some ([], Finished)                     (* x509dump.py:34-35 *)
      end
  end.

(** The whole loop; the fuel (one read per character, plus one) always
    suffices, see [dump_fuel]. *)
Definition dump (handle : Z -> bytes -> bool) (m : markers) (f : text) :=
  dump_go (S (length f)) handle m f.

(** The counter printed at the end (certCnt). *)
Definition count (r : option (list (Z * bytes) * outcome)) : nat :=
  match r with Some (done, _) => length done | None => O end.

Lemma truthy_shorter m f i s f' :
  readPemBlocksFromFile m f = (Ok (i, s), f') -> truthy s = true -> (length f' < length f)%nat.
Proof.
  intros E T. destruct (read_progress m f (split_lines f) (split_lines_of f)) as (n & E1 & Hn).
  rewrite E in E1. cbn in E1. subst f'.
  destruct f as [|c f0]; [cbn in E; inversion E; subst; discriminate|].
  assert (0 < n)%nat by (apply Hn; discriminate).
  rewrite (split_lines_readline (c :: f0)) by discriminate.
  destruct n as [|n]; [lia|]. cbn [skipn].
  pose proof (readline_len (c :: f0) ltac:(discriminate)) as HL.
  eapply Nat.le_lt_trans; [|exact HL].
  rewrite <- (split_lines_concat (snd (readline (c :: f0)))) at 2.
  rewrite <- (firstn_skipn n (split_lines (snd (readline (c :: f0))))) at 2.
  rewrite concat_app, app_length. lia.
Qed.

Lemma dump_fuel_gen handle m f : forall fuel, (length f < fuel)%nat -> exists r, dump_go fuel handle m f = Some r.
Proof.
  remember (length f) as n eqn:En. revert f En.
  induction n as [n IH] using lt_wf_ind; intros f En fuel Hfuel.
  destruct fuel as [|fuel]; [lia|]. cbn [dump_go].
  destruct (readPemBlocksFromFile m f) as [[[i s]|e] f'] eqn:E; [|eauto].
  destruct (truthy s) eqn:T; [|eauto].
  destruct (handle i (octets s)); [|eauto].
  pose proof (truthy_shorter _ _ _ _ _ E T) as HL.
  destruct (IH (length f')) with (f := f') (fuel := fuel) as [[done o] ->]; [lia | reflexivity | lia | eauto].
Qed.

(** More fuel does not change the result. *)
Lemma dump_fuel_mono handle m fuel : forall f r fuel', dump_go fuel handle m f = Some r ->
  (fuel <= fuel')%nat -> dump_go fuel' handle m f = Some r.
Proof.
  induction fuel as [|fuel IH]; intros f r fuel' E HL; [discriminate|].
  destruct fuel' as [|fuel']; [lia|]. cbn [dump_go] in *.
  destruct (readPemBlocksFromFile m f) as [[[i s]|e] f']; [|exact E].
  destruct (truthy s); [|exact E]. destruct (handle i (octets s)); [|exact E].
  destruct (dump_go fuel handle m f') as [[done o]|] eqn:E1; [|discriminate].
  rewrite (IH f' _ fuel' E1) by lia. exact E.
Qed.

Lemma dump_unfold handle m f :
  dump handle m f =
      match readPemBlocksFromFile m f with
      | (Err e, _) => Some ([], PemError e)
      | (Ok (i, s), f') =>
          if truthy s then
            if handle i (octets s) then
              match dump handle m f' with
              | Some (done, o) => Some ((i, octets s) :: done, o)
              | None => None
              end
            else Some ([], HandlerError)
          else Some ([], Finished)
      end.
Proof.
  unfold dump at 1. cbn [dump_go].
  destruct (readPemBlocksFromFile m f) as [[[i s]|e] f'] eqn:E; [|reflexivity].
  destruct (truthy s) eqn:T; [|reflexivity]. destruct (handle i (octets s)); [|reflexivity].
  pose proof (truthy_shorter _ _ _ _ _ E T) as HL.
  unfold dump. destruct (dump_fuel_gen handle m f' (S (length f')) ltac:(lia)) as [r Hr].
  rewrite Hr, (dump_fuel_mono _ _ _ _ _ (length f) Hr ltac:(lia)). reflexivity.
Qed.

Definition nonempty (b : block) : Prop := b_data b <> [].

Lemma dump_blocks handle m bs tail :
  Forall (block_ok m) bs -> Forall nonempty bs ->
  (forall b, In b bs -> handle (Z.of_nat (b_idx b)) (b_data b) = true) ->
  dump handle m (concat (map block_text bs) ++ tail) =
  match dump handle m tail with
  | Some (done, o) => Some (map (fun b => (Z.of_nat (b_idx b), b_data b)) bs ++ done, o)
  | None => None
  end.
Proof.
  intros Hbs Hne Hh. induction Hbs as [|b bs Hb _ IH]; cbn [map concat app].
  - now destruct (dump handle m tail) as [[done o]|].
  - inversion Hne as [|? ? Hb1 Hne']; subst.
    rewrite <- app_assoc. rewrite dump_unfold. unfold block_text at 1.
    destruct Hb as (G1 & G2 & Ho & Hc & Hp & Hk & Hd & Hw).
    rewrite (armour_roundtrip m (b_pre b) (b_start b) (b_stop b) (b_k b) (b_data b) (b_lines b) _ (b_idx b))
      by assumption.
    cbn [octets]. replace (truthy (Bytes (b_data b))) with true
      by (unfold nonempty in Hb1; destruct (b_data b); [congruence | reflexivity]).
    rewrite Hh by (left; reflexivity).
    rewrite IH; [|assumption|intros; apply Hh; right; assumption].
    now destruct (dump handle m tail) as [[done o]|].
Qed.

Lemma dump_spam handle m post :
  Forall (fun l => ~ In LF l /\ ~ is_start m (strip l)) post ->
  dump handle m (unlines post) = Some ([], Finished).
Proof.
  intros Hpost. rewrite dump_unfold.
  assert (E : readPemBlocksFromFile m (unlines post) = (Ok ((-1)%Z, NoText), [])).
  { rewrite <- (app_nil_r (unlines post)). eapply read_spam_only; [apply split_lines_of|].
    rewrite unlines_split by (eapply Forall_impl; [|exact Hpost]; cbv beta; tauto).
    cbn. rewrite app_nil_r. apply Forall_map. eapply Forall_impl; [|exact Hpost]. cbv beta.
    intros l [_ H]. now rewrite strip_LF. }
  rewrite E. reflexivity.
Qed.

Lemma dump_empty_block handle m b tail :
  block_ok m b -> b_data b = [] -> dump handle m (block_text b ++ tail) = Some ([], Finished).
Proof.
  intros (G1 & G2 & Ho & Hc & Hp & Hk & Hd & Hw) E. rewrite dump_unfold. unfold block_text.
  rewrite (armour_roundtrip m (b_pre b) (b_start b) (b_stop b) (b_k b) (b_data b) (b_lines b) _ (b_idx b))
    by assumption.
  rewrite E. reflexivity.
Qed.
