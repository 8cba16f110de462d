(** The codec assertions of the project's own tests (/repo/tests, extracted into Gen/Vectors.v),
    run against the model.  They were written against the real pyasn1, which this model
    replaces by Asn1/Der.v, so they are evidence for that part of the trusted base.  The second
    half runs whole test methods (Gen/TestPrograms.v). *)
From Coq Require Import List String ZArith NArith Bool.
From Verif Require Pem.Text Pem.Base64 Pem.Pem.
From Verif Require Import Py.Syntax Asn1.Types Py.Eval Asn1.Bytes Asn1.Der Asn1.EqbFacts Asn1.Wf Asn1.Open Asn1.OpenDepth
  Load.Import Load.Table Load.Computed Load.Registry Load.Schemas Load.Replay Load.CheckedFacts Tools.Programs Tools.TestLang Tools.TestRun Gen.Vectors Gen.TestPrograms.
Import ListNotations.
Open Scope string_scope.
Open Scope list_scope.

Section codec.
Context {Cdc : codec}.

(** The entries of a map given as openTypes. *)
Definition more_items (W : world) (x : more) : items :=
  match x with
  | One mk k mv v =>
      match eval_in W mk k, eval_in W mv v with
      | OK kv, OK vv => match as_key kv, as_item vv with Some k', Some v' => [(k', v')] | _, _ => [] end
      | _, _ => []
      end
  | AllOf m x => match eval_in W m (EName x) with OK (PDict d) => Import.registry W d | _ => [] end
  end.

(** pem.readBase64fromText of the text. *)
Definition substrate (v : vector) : option bytes :=
  match Pem.readBase64fromText (chars (v_text v)) with Base64.Ok b => Some b | Base64.Err _ => None end.

(** The decode call of a test. *)
Definition call (W : world) (v : vector) (t : asn1) (s : bytes) : res (aval * bytes) :=
  if v_open v then decode_open (with_map (flat_map (more_items W) (v_more v)) (reg_of W)) t s else decode t s.

(** The test passes as far as that call and the two assertions are concerned. *)
Definition verdict (w : r world) (v : vector) : bool :=
  match substrate v, w with
  | Some s, OK W =>
      match schema W (v_module v) (v_type v) with
      | Some (t, _) =>
          match call W v t s with
          | Ok (x, r) => if (if v_norest v then match r with [] => true | _ => false end else true)
                         then if v_recode v then res_eqb (encode t x) (Ok s) else true else false
          | _ => false
          end
      | None => false
      end
  | _, _ => false
  end.
Definition passes (v : vector) : bool := verdict (session (v_imports v)) v.

(** The same with the session replayed from the table of finished modules. *)
Definition passes_in (T : tbl) (v : vector) : bool := if named (v_imports v) then verdict (replay_session T (v_imports v)) v else false.

(** The assertions of test methods that run to their end, each making at least one. *)
Definition count (w : r world) (p : program) : option N := match run_in w p with OK n => if N.ltb 0 n then Some n else None | _ => None end.
Definition count_in (T : tbl) (p : program) : option N := if named (p_imports p) then count (replay_session T (p_imports p)) p else None.
Fixpoint total (f : program -> option N) (l : list program) : option N :=
  match l with
  | [] => Some 0%N
  | p :: l' => match f p with Some a => match total f l' with Some b => Some (a + b)%N | None => None end | None => None end
  end.
Lemma total_all : forall f l n, total f l = Some n -> forall p, In p l -> exists k, f p = Some k.
Proof.
  intros f l. induction l as [|q l IH]; intros n E p I; [contradiction I|]. cbn [total] in E.
  destruct (f q) as [a|] eqn:A; [|discriminate E]. destruct (total f l) as [b|] eqn:B; [|discriminate E].
  destruct I as [I|I]; [subst q; eauto|exact (IH b eq_refl p I)].
Qed.
Lemma total_same : forall f g l n, (forall p k, f p = Some k -> g p = Some k) -> total f l = Some n -> total g l = Some n.
Proof.
  intros f g l. induction l as [|q l IH]; intros n H E; [exact E|]. cbn [total] in E |- *.
  destruct (f q) as [a|] eqn:A; [|discriminate E]. destruct (total f l) as [b|] eqn:B; [|discriminate E].
  rewrite (H _ _ A), (IH b H eq_refl). exact E.
Qed.

Lemma computed : match build load_order [] with
                 | Some T => if forallb (passes_in T) vectors then total (count_in T) programs else None
                 | None => None end = Some 2872%N.
Proof. vm_cast_no_check (eq_refl (Some 2872%N)). Qed.
Lemma in_T : forallb (passes_in T) vectors = true /\ total (count_in T) programs = Some 2872%N.
Proof.
  pose proof computed as K. unfold T. destruct (build load_order []) as [t|]; [|discriminate K].
  destruct (forallb (passes_in t) vectors) eqn:A; [|discriminate K]. split; [exact A|exact K].
Qed.
Lemma count_in_run : forall p k, count_in T p = Some k -> run p = OK k /\ (0 < k)%N.
Proof.
  intros p k P. unfold count_in in P. unfold run.
  destruct (named (p_imports p)) eqn:N; [|discriminate P]. rewrite (session_replayed _ N). unfold count in P.
  destruct (run_in (replay_session T (p_imports p)) p) as [n|e|e]; [|discriminate P..].
  destruct (N.ltb 0 n) eqn:Q; [|discriminate P]. assert (n = k) by congruence. subst n. split; [reflexivity|]. apply N.ltb_lt. exact Q.
Qed.

Theorem all_run : forall p, In p programs -> exists n, run p = OK n /\ (0 < n)%N.
Proof.
  intros p I. destruct (total_all _ _ _ (proj2 in_T) p I) as [k E]. exists k. exact (count_in_run p k E).
Qed.
Theorem all_assertions : total (fun p => match run p with OK n => Some n | _ => None end) programs = Some 2872%N.
Proof.
  apply (total_same (count_in T)); [|exact (proj2 in_T)]. intros p k E. rewrite (proj1 (count_in_run p k E)). reflexivity.
Qed.

Theorem all_pass : forall v, In v vectors -> passes v = true.
Proof.
  pose proof (proj1 in_T) as K.
  intros v I. pose proof (proj1 (forallb_forall _ _) K v I) as P. clear K I. unfold passes_in in P. unfold passes.
  destruct (named (v_imports v)) eqn:N; [|discriminate P]. rewrite (session_replayed _ N). exact P.
Qed.

Lemma verdict_spelt : forall w v, verdict w v = true ->
  exists s W t o x rest, Pem.readBase64fromText (chars (v_text v)) = Base64.Ok s /\ w = OK W /\
    schema W (v_module v) (v_type v) = Some (t, o) /\ call W v t s = Ok (x, rest) /\
    (v_norest v = true -> rest = []) /\ (v_recode v = true -> encode t x = Ok s).
Proof.
  intros w v P. unfold verdict, substrate in P. destruct (Pem.readBase64fromText (chars (v_text v))) as [s|e] eqn:ES; [|discriminate P].
  destruct w as [W|e|e] eqn:EW; [|discriminate P|discriminate P].
  destruct (schema W (v_module v) (v_type v)) as [[t o]|] eqn:HS; [|discriminate P].
  destruct (call W v t s) as [[x rest]| | |] eqn:EC; [|discriminate P..].
  exists s, W, t, o, x, rest. split; [reflexivity|]. split; [reflexivity|]. split; [exact HS|]. split; [exact EC|].
  destruct (v_norest v), (v_recode v), rest; try discriminate P; (split; [intro K; try discriminate K; try reflexivity|intro K; try discriminate K]);
    exact (res_eqb_ok _ _ P).
Qed.

Theorem all_pass_spelt : forall v, In v vectors ->
  exists s W t o x rest, Pem.readBase64fromText (chars (v_text v)) = Base64.Ok s /\ session (v_imports v) = OK W /\
    schema W (v_module v) (v_type v) = Some (t, o) /\ call W v t s = Ok (x, rest) /\
    (v_norest v = true -> rest = []) /\ (v_recode v = true -> encode t x = Ok s).
Proof. intros v I. exact (verdict_spelt _ _ (all_pass v I)). Qed.

End codec.
