(** Python text: code points, [str.strip], text-file [readline].

    These are library functions that pyasn1_modules/pem.py calls; their
    semantics is part of the trusted base (DESIGN.md). *)
From Coq Require Import List NArith Bool Lia.
Import ListNotations.
Open Scope N_scope.

(** A character is its Unicode code point; a text is a list of characters. *)
Definition char := N.
Definition text := list char.

(** Line feed, the only terminator [readline] knows after Python's
    universal-newline translation. *)
Definition LF : char := 10.

(** [str.isspace] on one character: the set [str.strip()] removes.
    Used by pyasn1_modules/pem.py:28 ([certLine.strip()]). *)
Definition is_space (c : char) : bool :=
  ((9 <=? c) && (c <=? 13)) || ((28 <=? c) && (c <=? 32)) || (c =? 133) || (c =? 160)
  || (c =? 5760) || ((8192 <=? c) && (c <=? 8202)) || (c =? 8232) || (c =? 8233)
  || (c =? 8239) || (c =? 8287) || (c =? 12288).

(** [str.lstrip()]. *)
Fixpoint lstrip (t : text) : text :=
  match t with
  | c :: t' => if is_space c then lstrip t' else t
  | [] => []
  end.

(** [str.rstrip()]. *)
Definition rstrip (t : text) : text := rev (lstrip (rev t)).

(** [str.strip()], pyasn1_modules/pem.py:28. *)
Definition strip (t : text) : text := rstrip (lstrip t).

(** [fileObj.readline()], pyasn1_modules/pem.py:25.  The file object is the
    list of characters not read yet; result = (line read, what is left). *)
Fixpoint readline (f : text) : text * text :=
  match f with
  | [] => ([], [])
  | c :: f' =>
      if c =? LF then ([c], f')
      else let (l, r) := readline f' in (c :: l, r)
  end.

(** Equality test on texts (Python [str.__eq__], used through dict lookup). *)
Fixpoint text_eqb (a b : text) : bool :=
  match a, b with
  | [], [] => true
  | x :: a', y :: b' => (x =? y) && text_eqb a' b'
  | _, _ => false
  end.

Lemma text_eqb_eq a b : text_eqb a b = true <-> a = b.
Proof.
  revert b; induction a as [|x a IH]; intros [|y b]; cbn; try (split; congruence).
  rewrite andb_true_iff, N.eqb_eq, IH. split; [intros [-> ->]; reflexivity | intros H; inversion H; auto].
Qed.

Lemma text_eqb_refl a : text_eqb a a = true.
Proof. apply text_eqb_eq; reflexivity. Qed.

Lemma text_eqb_neq a b : text_eqb a b = false <-> a <> b.
Proof.
  destruct (text_eqb a b) eqn:E; split; try congruence.
  - intros H. apply text_eqb_eq in E. contradiction.
  - intros _ H. subst. rewrite text_eqb_refl in E. discriminate.
Qed.

(** ** Facts *)

Lemma readline_split f : fst (readline f) ++ snd (readline f) = f.
Proof.
  induction f as [|c f IH]; cbn; [reflexivity|].
  destruct (c =? LF); cbn; [reflexivity|].
  destruct (readline f) as [l r]; cbn in *. now rewrite IH.
Qed.

Lemma readline_nil f : fst (readline f) = [] <-> f = [].
Proof.
  destruct f as [|c f]; cbn; [tauto|].
  destruct (c =? LF); cbn; [split; discriminate|].
  destruct (readline f); cbn; split; discriminate.
Qed.

Lemma readline_len f : f <> [] -> (length (snd (readline f)) < length f)%nat.
Proof.
  intros Hf. rewrite <- (readline_split f) at 2. rewrite app_length.
  destruct (fst (readline f)) eqn:E; cbn; [apply (proj1 (readline_nil f)) in E; contradiction | lia].
Qed.

(** Reading a terminated line. *)
Lemma readline_line l f : ~ In LF l -> readline (l ++ LF :: f) = (l ++ [LF], f).
Proof.
  induction l as [|c l IH]; cbn; intros H; [reflexivity|].
  destruct (N.eqb_spec c LF) as [->|Hc]; [tauto|].
  rewrite IH by tauto. reflexivity.
Qed.

(** Reading the last, unterminated line. *)
Lemma readline_last l : ~ In LF l -> readline l = (l, []).
Proof.
  induction l as [|c l IH]; cbn; intros H; [reflexivity|].
  destruct (N.eqb_spec c LF) as [->|Hc]; [tauto|].
  rewrite IH by tauto. reflexivity.
Qed.

Lemma lstrip_space_app w t : forallb is_space w = true -> lstrip (w ++ t) = lstrip t.
Proof.
  induction w as [|c w IH]; cbn; [reflexivity|].
  intros H; apply andb_true_iff in H as [Hc Hw]. rewrite Hc. auto.
Qed.

Lemma lstrip_all_space w : forallb is_space w = true -> lstrip w = [].
Proof. intros H. rewrite <- (app_nil_r w). now rewrite lstrip_space_app. Qed.

Lemma forallb_rev {A} (p : A -> bool) l : forallb p (rev l) = forallb p l.
Proof.
  induction l as [|a l IH]; cbn; [reflexivity|].
  rewrite forallb_app, IH; cbn. rewrite andb_true_r. apply andb_comm.
Qed.

Lemma rstrip_space_app w t : forallb is_space w = true -> rstrip (t ++ w) = rstrip t.
Proof.
  intros H. unfold rstrip. rewrite rev_app_distr, lstrip_space_app; [reflexivity|].
  now rewrite forallb_rev.
Qed.

Lemma lstrip_app_nonempty t w : lstrip t <> [] -> lstrip (t ++ w) = lstrip t ++ w.
Proof.
  induction t as [|c t IH]; cbn; [congruence|].
  destruct (is_space c); [exact IH | reflexivity].
Qed.

Lemma lstrip_nil_all t : lstrip t = [] -> forallb is_space t = true.
Proof.
  induction t as [|c t IH]; cbn; [reflexivity|].
  destruct (is_space c); [exact IH | discriminate].
Qed.

(** Stripping ignores white space on both sides. *)
Lemma strip_spaces w1 t w2 :
  forallb is_space w1 = true -> forallb is_space w2 = true ->
  strip (w1 ++ t ++ w2) = strip t.
Proof.
  intros H1 H2. unfold strip. rewrite lstrip_space_app by assumption.
  destruct (lstrip t) eqn:E.
  - apply lstrip_nil_all in E.
    rewrite lstrip_space_app by assumption.
    rewrite lstrip_all_space by assumption. reflexivity.
  - rewrite lstrip_app_nonempty by congruence.
    rewrite E. now apply rstrip_space_app.
Qed.

Lemma strip_LF l : strip (l ++ [LF]) = strip l.
Proof. apply (strip_spaces [] l [LF]); reflexivity. Qed.

Lemma lstrip_id t : forallb (fun c => negb (is_space c)) t = true -> lstrip t = t.
Proof.
  destruct t as [|c t]; cbn; [reflexivity|].
  intros H; apply andb_true_iff in H as [Hc _].
  destruct (is_space c); [discriminate | reflexivity].
Qed.

Lemma strip_id t : forallb (fun c => negb (is_space c)) t = true -> strip t = t.
Proof.
  intros H. unfold strip. rewrite lstrip_id by assumption. unfold rstrip.
  rewrite lstrip_id, rev_involutive; [reflexivity|]. now rewrite forallb_rev.
Qed.
