(** The functions of pem.py, run from their source, are those of Pem/Pem.v. *)
From Coq Require Import List String Ascii ZArith NArith Bool Lia ZifyBool.
From Verif Require Pem.Text Pem.Base64 Pem.Pem Pem.PemFacts.
From Verif Require Import Py.Syntax Asn1.Types Py.Eval Asn1.Bytes Asn1.Der Load.Import Load.Schemas
  Tools.Layers Tools.Programs Tools.ScriptLang Gen.Scripts Tools.Script.
Import ListNotations.
Open Scope string_scope.
Open Scope list_scope.

(** ** str.encode() and base64 *)

Lemma a2b_skip : forall c q l p t, (128 <= c)%N -> Base64.a2b q l p (c :: t) = Base64.a2b q l p t.
Proof.
  intros c q l p t H. cbn [Base64.a2b]. unfold Base64.PAD. destruct (N.eqb_spec c 61); [lia|].
  assert (V : Base64.b64val c = None).
  { unfold Base64.b64val. repeat match goal with |- context [if ?b then _ else _] => let E := fresh in destruct b eqn:E; [lia|] end. reflexivity. }
  rewrite V. reflexivity.
Qed.
Lemma a2b_same : forall c q l p t t', (forall q l p, Base64.a2b q l p t = Base64.a2b q l p t') -> Base64.a2b q l p (c :: t) = Base64.a2b q l p (c :: t').
Proof. intros c q l p t t' H. cbn [Base64.a2b]. rewrite !H. destruct (Base64.b64val c); [rewrite !H|]; reflexivity. Qed.
Lemma a2b_utf8 : forall t q l p, Base64.a2b q l p (utf8 t) = Base64.a2b q l p t.
Proof.
  induction t as [|c t IH]; intros q l p; [reflexivity|]. unfold utf8 in *. cbn [flat_map]. unfold utf8_char at 1.
  destruct (N.ltb_spec c 128); [apply (a2b_same c); exact IH|].
  rewrite (a2b_skip c) by assumption.
  destruct (N.ltb_spec c 2048); [|destruct (N.ltb_spec c 65536)]; cbn [app]; rewrite !a2b_skip by (eapply N.le_trans; [|apply N.le_add_r]; discriminate); apply IH.
Qed.
Lemma b64decode_utf8 : forall t, Base64.b64decode t = if existsb Base64.is_surrogate t then Base64.Err Base64.UnicodeEncode else Base64.a2b 0 0 0 (utf8 t).
Proof. intro t. unfold Base64.b64decode. rewrite a2b_utf8. reflexivity. Qed.

Section codec.
Context {Cdc : codec}.
Variable W : world.
Variable argv : list Text.text.
Variable pem : string -> list pv -> list (string * pv) -> M pv.
Variable n : nat.

Definition pem_globals : vars := [("base64", KName "base64"); ("sys", KName "sys"); ("stSpam", KInt 0); ("stHam", KInt 1); ("stDump", KInt 2);
  ("readPemBlocksFromFile", KPem "readPemBlocksFromFile"); ("readPemFromFile", KPem "readPemFromFile");
  ("readBase64fromText", KPem "readBase64fromText"); ("readBase64FromFile", KPem "readBase64FromFile")].
Lemma pem_top : forall s, block W argv pem n [] [] pem_py s = Val (pem_globals, Next) s.
Proof. intro s. reflexivity. Qed.

(** What the functions of Pem/Pem.v return. *)
Definition of_substrate (s : Pem.substrate) : pv := match s with Pem.NoText => KText [] | Pem.Bytes b => KBytes b end.
Definition of_state (s : Pem.pem_state) : pv := KInt match s with Pem.stSpam => 0 | Pem.stHam => 1 | Pem.stDump => 2 end.
Definition pair_of (q : Text.text * Text.text) : pv := KTuple [KText (fst q); KText (snd q)].
Definition dict_of (l : list (Text.text * Z)) : list (pv * pv) := map (fun q => (KText (fst q), KInt (snd q))) l.

Lemma dict_at_of : forall l k, dict_at (dict_of l) (KText k) = Some (option_map KInt (Pem.dict_get l k)).
Proof.
  induction l as [|[k' v] l IH]; intro k; [reflexivity|]. cbn [dict_of map dict_at Pem.dict_get fst snd]. unfold dict_of in IH. rewrite IH.
  destruct (Pem.dict_get l k) as [w|]; [reflexivity|]. cbn [option_map equals].
  assert (S : Text.text_eqb k' k = Text.text_eqb k k').
  { apply eq_true_iff_eq. rewrite !Text.text_eqb_eq. split; congruence. }
  rewrite S. destruct (Text.text_eqb k k'); reflexivity.
Qed.

Definition the_loop : list ps := Eval lazy in
  match definition pem_py "readPemBlocksFromFile" with
  | Some (_, _, [_; _; _; _; _; _; PWhile _ b; _]) => b
  | _ => []
  end.
Definition locs (m : Pem.markers) (i : Z) (sub : pv) (ls : list Text.text) (st : Pem.pem_state) (more : vars) : vars :=
  [("fileObj", KFile); ("markers", KTuple (map pair_of m)); ("startMarkers", KDict (dict_of (Pem.startMarkers m)));
   ("stopMarkers", KDict (dict_of (Pem.stopMarkers m))); ("idx", KInt i); ("substrate", sub); ("certLines", KList (map KText ls)); ("state", of_state st)] ++ more.


Lemma seq : forall G E s l i E' i', exec W argv pem n G E s i = Val (E', Next) i' -> block W argv pem n G E (s :: l) i = block W argv pem n G E' l i'.
Proof. intros G E s l i E' i' H. cbn [block]. unfold bind. rewrite H. reflexivity. Qed.
Lemma seq_end : forall G E s l i E' g i', exec W argv pem n G E s i = Val (E', g) i' -> g <> Next -> block W argv pem n G E (s :: l) i = Val (E', g) i'.
Proof. intros G E s l i E' g i' H N. cbn [block]. unfold bind. rewrite H. destruct g; [congruence|reflexivity..]. Qed.

Lemma seq_throw : forall G E s l i e i', exec W argv pem n G E s i = Throw e i' -> block W argv pem n G E (s :: l) i = Throw e i'.
Proof. intros G E s l i e i' H. cbn [block]. unfold bind. rewrite H. reflexivity. Qed.
Local Ltac ev := lazy -[Text.readline Text.strip Text.text_eqb Base64.a2b Base64.b64decode utf8 dict_at dict_of mapM map pair_of Pem.startMarkers Pem.stopMarkers
  Z.eqb existsb Base64.is_surrogate join Pem.dict_get Pem.decode_lines List.concat];
  repeat change (Z.eqb 0 0) with true; repeat change (Z.eqb 1 0) with false; repeat change (Z.eqb 2 0) with false; repeat change (Z.eqb 0 1) with false; repeat change (Z.eqb 1 1) with true;
  repeat change (Z.eqb 2 1) with false; repeat change (Z.eqb 0 2) with false; repeat change (Z.eqb 1 2) with false; repeat change (Z.eqb 2 2) with true; cbv beta iota.
Local Notation run := (exec W argv pem n pem_globals).
Local Notation stmt k := (nth k the_loop PBreak).
Definition line (l : Text.text) : vars := [("certLine", KText l)].

Lemma s_read : forall m i sub ls st l0 l f f' o, l0 = [] \/ (exists t, l0 = line t) -> Text.readline f = (l, f') ->
  run (locs m i sub ls st l0) (stmt 0) (mkIO f o) = Val (locs m i sub ls st (line l), Next) (mkIO f' o).
Proof. intros m i sub ls st l0 l f f' o H R. destruct H as [->|[t ->]]; ev; rewrite R; reflexivity. Qed.
Lemma s_end : forall m i sub ls st l s,
  run (locs m i sub ls st (line l)) (stmt 1) s = Val (locs m i sub ls st (line l), match l with [] => Break | _ => Next end) s.
Proof. intros. destruct l; ev; reflexivity. Qed.
Lemma s_strip : forall m i sub ls st l s,
  run (locs m i sub ls st (line l)) (stmt 2) s = Val (locs m i sub ls st (line (Text.strip l)), Next) s.
Proof. intros. ev. reflexivity. Qed.
Lemma s_start : forall m i sub ls st l s,
  run (locs m i sub ls st (line l)) (stmt 3) s =
  match st, Pem.dict_get (Pem.startMarkers m) l with
  | Pem.stSpam, Some j => Val (locs m j sub [] Pem.stHam (line l), Continue) s
  | _, _ => Val (locs m i sub ls st (line l), Next) s
  end.
Proof.
  intros. destruct st; [|ev; reflexivity..]. ev. rewrite !dict_at_of. destruct (Pem.dict_get (Pem.startMarkers m) l) as [j|]; ev; reflexivity.
Qed.
Lemma s_ham : forall m i sub ls st l s,
  run (locs m i sub ls st (line l)) (stmt 4) s =
  match st with
  | Pem.stHam =>
      if match Pem.dict_get (Pem.stopMarkers m) l with Some j => Z.eqb j i | None => false end
      then Val (locs m i sub ls Pem.stDump (line l), Next) s
      else Val (locs m i sub (ls ++ [l]) st (line l), Next) s
  | _ => Val (locs m i sub ls st (line l), Next) s
  end.
Proof.
  intros. destruct st; [ev; reflexivity| |ev; reflexivity]. unfold locs. rewrite map_app. ev. rewrite !dict_at_of. destruct (Pem.dict_get (Pem.stopMarkers m) l) as [j|]; ev; [|reflexivity].
  destruct (Z.eqb j i); ev; reflexivity.
Qed.
Lemma join_octets : forall l, join (map KBytes l) = Some (List.concat l).
Proof. induction l as [|b l IH]; [reflexivity|]. cbn [map join List.concat]. rewrite IH. reflexivity. Qed.
Lemma lines_decoded : forall (f : pv -> M pv), (forall t s, f (KText t) s = match Base64.b64decode t with Base64.Ok b => Val (KBytes b) s | Base64.Err e => Throw (Binascii e) s end) ->
  forall ls s, mapM f (map KText ls) s = match Pem.decode_lines ls with Base64.Ok bs => Val (map KBytes bs) s | Base64.Err e => Throw (Binascii e) s end.
Proof.
  intros f H. induction ls as [|l ls IH]; intro s; [reflexivity|]. cbn [map mapM Pem.decode_lines]. unfold bind. rewrite H.
  destruct (Base64.b64decode l) as [b|e]; [|reflexivity]. rewrite IH. destruct (Pem.decode_lines ls); reflexivity.
Qed.
Lemma bind_ext : forall {A B} (x : M A) (k k' : A -> M B) s, (forall a s, k a s = k' a s) -> bind x k s = bind x k' s.
Proof. intros A B x k k' s H. unfold bind. destruct (x s); try reflexivity. apply H. Qed.
Lemma inner_block : forall G l E s,
  (fix block (E : vars) (l : list ps) {struct l} : M (vars * sig) :=
    match l with
    | [] => ret (E, Next)
    | s :: l' => let* (E', g) := exec W argv pem n G E s in match g with Next => block E' l' | _ => ret (E', g) end
    end) E l s = block W argv pem n G E l s.
Proof.
  intros G l. induction l as [|x l IH]; intros E s; [reflexivity|]. cbn [block]. unfold bind.
  destruct (exec W argv pem n G E x s) as [[E' g] s1|e s1|z s1|s1|]; try reflexivity. destruct g; try reflexivity. apply IH.
Qed.
Lemma exec_if : forall G E c a b s,
  exec W argv pem n G E (PIf c a b) s = bind (test W argv pem G E c) (fun t => if t then block W argv pem n G E a else block W argv pem n G E b) s.
Proof.
  intros G E c a b s. cbn [exec]. apply bind_ext. intros t s'. destruct t; apply inner_block.
Qed.
Lemma bind_val : forall {A B} (x : M A) (k : A -> M B) s a s', x s = Val a s' -> bind x k s = k a s'.
Proof. intros A B x k s a s' H. unfold bind. rewrite H. reflexivity. Qed.
Lemma bind_throw : forall {A B} (x : M A) (k : A -> M B) s e s', x s = Throw e s' -> bind x k s = Throw e s'.
Proof. intros A B x k s a s' H. unfold bind. rewrite H. reflexivity. Qed.
Lemma s_dump : forall m i sub ls st l s,
  run (locs m i sub ls st (line l)) (stmt 5) s =
  match st with
  | Pem.stDump => match Pem.decode_lines ls with
                  | Base64.Ok bs => Val (locs m i (KBytes (List.concat bs)) ls st (line l), Break) s
                  | Base64.Err e => Throw (Binascii e) s
                  end
  | _ => Val (locs m i sub ls st (line l), Next) s
  end.
Proof.
  intros. destruct st; [reflexivity..|]. unfold the_loop. cbn [nth]. rewrite exec_if, (bind_val _ _ _ true s) by reflexivity. cbv iota.
  assert (F : forall t s0, eval W argv pem pem_globals (("x", KText t) :: locs m i sub ls Pem.stDump (line l))
      (XCall (XAttr (XName "base64") "b64decode") [XCall (XAttr (XName "x") "encode") [] []] []) s0
    = match Base64.b64decode t with Base64.Ok b => Val (KBytes b) s0 | Base64.Err e => Throw (Binascii e) s0 end).
  { intros t s0. ev. rewrite b64decode_utf8. unfold Text.char. match goal with |- context [if ?b then _ else _] => destruct b end; ev; [reflexivity|].
    destruct (Base64.a2b 0 0 0 (utf8 t)); ev; reflexivity. }
  assert (C : eval W argv pem pem_globals (locs m i sub ls Pem.stDump (line l))
      (XComp (XCall (XAttr (XName "base64") "b64decode") [XCall (XAttr (XName "x") "encode") [] []] []) "x" (XName "certLines")) s
    = match Pem.decode_lines ls with Base64.Ok bs => Val (KList (map KBytes bs)) s | Base64.Err e => Throw (Binascii e) s end).
  { cbn [eval]. rewrite (bind_val _ _ _ (KList (map KText ls)) s) by reflexivity. unfold bind.
    rewrite (lines_decoded _ F). destruct (Pem.decode_lines ls); reflexivity. }
  destruct (Pem.decode_lines ls) as [bs|e].
  - erewrite seq; [reflexivity|]. rewrite exec_if. rewrite (bind_val _ _ _ false s) by reflexivity. cbv iota. erewrite seq; [reflexivity|].
    cbn [exec]. erewrite bind_val; [reflexivity|]. cbn [eval]. rewrite (bind_val _ _ _ (KBound (KBytes []) "join") s) by reflexivity. erewrite bind_val.
    2: { erewrite bind_val; [|exact C]. erewrite bind_val; reflexivity. }
    erewrite bind_val; [|reflexivity]. cbv iota beta. cbn [calls method String.eqb Ascii.eqb Bool.eqb]. rewrite join_octets. reflexivity.
  - apply seq_throw. rewrite exec_if. rewrite (bind_val _ _ _ false s) by reflexivity. cbv iota. apply seq_throw.
    cbn [exec]. apply bind_throw. cbn [eval]. erewrite bind_val; [|reflexivity]. apply bind_throw. apply bind_throw. exact C.
Qed.
(** ** One iteration, and the loop *)

Lemma iteration : forall m i ls st l0 c l f f' o, l0 = [] \/ (exists t, l0 = line t) -> Text.readline f = (c :: l, f') ->
  block W argv pem n pem_globals (locs m i (KText []) ls st l0) the_loop (mkIO f o) =
  match Pem.body m (c :: l) (Pem.mkL i ls st) with
  | Pem.Continue (Pem.mkL i' ls' st') => 
      Val (locs m i' (KText []) ls' st' (line (Text.strip (c :: l))),
           match st, Pem.dict_get (Pem.startMarkers m) (Text.strip (c :: l)) with Pem.stSpam, Some _ => Continue | _, _ => Next end) (mkIO f' o)
  | Pem.Leave (Base64.Ok (i', s)) => Val (locs m i' (of_substrate s) ls Pem.stDump (line (Text.strip (c :: l))), Break) (mkIO f' o)
  | Pem.Leave (Base64.Err e) => Throw (Binascii e) (mkIO f' o)
  end.
Proof.
  intros m i ls st l0 c l f f' o H R.
  change the_loop with [stmt 0; stmt 1; stmt 2; stmt 3; stmt 4; stmt 5].
  rewrite (seq _ _ _ _ _ _ _ (s_read m i _ ls st l0 (c :: l) f f' o H R)). rewrite (seq _ _ _ _ _ _ _ (s_end m i _ ls st (c :: l) _)).
  rewrite (seq _ _ _ _ _ _ _ (s_strip m i _ ls st (c :: l) _)). unfold Pem.body. set (t := Text.strip (c :: l)). cbn [Pem.state Pem.idx Pem.certLines].
  destruct st.
  - pose proof (s_start m i (KText []) ls Pem.stSpam t (mkIO f' o)) as S. destruct (Pem.dict_get (Pem.startMarkers m) t) as [j|].
    + rewrite (seq_end _ _ _ _ _ _ _ _ S) by discriminate. reflexivity.
    + rewrite (seq _ _ _ _ _ _ _ S), (seq _ _ _ _ _ _ _ (s_ham m i _ ls Pem.stSpam t _)), (seq _ _ _ _ _ _ _ (s_dump m i _ ls Pem.stSpam t _)). reflexivity.
  - rewrite (seq _ _ _ _ _ _ _ (s_start m i _ ls Pem.stHam t _)). pose proof (s_ham m i (KText []) ls Pem.stHam t (mkIO f' o)) as S. cbv iota in S.
    destruct (match Pem.dict_get (Pem.stopMarkers m) t with Some j => Z.eqb j i | None => false end).
    + rewrite (seq _ _ _ _ _ _ _ S). pose proof (s_dump m i (KText []) ls Pem.stDump t (mkIO f' o)) as D. cbv iota in D.
      cbn [Pem.state Pem.idx Pem.certLines]. destruct (Pem.decode_lines ls) as [bs|e].
      * rewrite (seq_end _ _ _ _ _ _ _ _ D) by discriminate. reflexivity.
      * rewrite (seq_throw _ _ _ _ _ _ _ D). reflexivity.
    + rewrite (seq _ _ _ _ _ _ _ S), (seq _ _ _ _ _ _ _ (s_dump m i _ (ls ++ [t]) Pem.stHam t _)). reflexivity.
  - rewrite (seq _ _ _ _ _ _ _ (s_start m i _ ls Pem.stDump t _)), (seq _ _ _ _ _ _ _ (s_ham m i _ ls Pem.stDump t _)).
    pose proof (s_dump m i (KText []) ls Pem.stDump t (mkIO f' o)) as D. cbv iota in D. cbn [Pem.state Pem.idx Pem.certLines].
    destruct (Pem.decode_lines ls) as [bs|e].
    + rewrite (seq_end _ _ _ _ _ _ _ _ D) by discriminate. reflexivity.
    + rewrite (seq_throw _ _ _ _ _ _ _ D). reflexivity.
Qed.

Lemma repeat_ext : forall c (b b' : vars -> M (vars * sig)), (forall E s, b E s = b' E s) -> forall k E s, repeat_ k c b E s = repeat_ k c b' E s.
Proof.
  intros c b b' H. induction k as [|k IH]; intros E s; [reflexivity|]. cbn [repeat_]. apply bind_ext. intros t s1. destruct t; [|reflexivity].
  unfold bind. rewrite H. destruct (b' E s1) as [[E' g] s2|e s2|z s2|s2|]; try reflexivity. destruct g; try reflexivity; apply IH.
Qed.
Lemma exec_while : forall G E c b s,
  exec W argv pem n G E (PWhile c b) s = repeat_ n (fun E => test W argv pem G E c) (fun E => block W argv pem n G E b) E s.
Proof. intros G E c b s. cbn [exec]. apply repeat_ext. intros E' s'. apply inner_block. Qed.

Lemma loop_runs : forall m k i ls st l0 f o, l0 = [] \/ (exists t, l0 = line t) ->
  exists E', repeat_ k (fun E => test W argv pem pem_globals E XTrue) (fun E => block W argv pem n pem_globals E the_loop) (locs m i (KText []) ls st l0) (mkIO f o)
  = match Pem.loop k m (Pem.mkL i ls st) f with
    | Some (Base64.Ok (j, s), f') => Val (E', Next) (mkIO f' o)
    | Some (Base64.Err e, f') => Throw (Binascii e) (mkIO f' o)
    | None => More
    end /\
  forall j s f', Pem.loop k m (Pem.mkL i ls st) f = Some (Base64.Ok (j, s), f') -> exists ls' st' l', E' = locs m j (of_substrate s) ls' st' l'.
Proof.
  intros m. induction k as [|k IH]; intros i ls st l0 f o H; [exists []; split; [reflexivity|intros j s f' X; discriminate X]|].
  cbn [repeat_ Pem.loop]. rewrite (bind_val _ _ _ true (mkIO f o)) by reflexivity. cbv iota.
  destruct (Text.readline f) as [l f'] eqn:R. destruct l as [|c l].
  - exists (locs m i (KText []) ls st (line [])). split.
    + erewrite bind_val; [|change the_loop with [stmt 0; stmt 1; stmt 2; stmt 3; stmt 4; stmt 5];
        rewrite (seq _ _ _ _ _ _ _ (s_read m i _ ls st l0 [] f f' o H R)); apply (seq_end _ _ _ _ _ _ _ _ (s_end m i _ ls st [] _)); discriminate].
      reflexivity.
    + intros j s f1 X. injection X as <- <- <-. exists ls, st, (line []). reflexivity.
  - pose proof (iteration m i ls st l0 c l f f' o H R) as I. destruct (Pem.body m (c :: l) (Pem.mkL i ls st)) as [[i' ls' st']|[[i' s]|e]].
    + destruct (IH i' ls' st' (line (Text.strip (c :: l))) f' o) as (E' & Q & P); [right; eexists; reflexivity|].
      exists E'. split; [|exact P]. rewrite (bind_val _ _ _ _ _ I). rewrite <- Q.
      destruct st, (Pem.dict_get (Pem.startMarkers m) (Text.strip (c :: l))); reflexivity.
    + eexists. split; [rewrite (bind_val _ _ _ _ _ I); reflexivity|]. intros j s1 f1 X. injection X as <- <- <-. repeat eexists.
    + exists []. split; [exact (bind_throw _ _ _ _ _ I)|]. intros j s1 f1 X. discriminate X.
Qed.
Lemma numbered : forall l z, items_of (map (fun v => match v with KTuple [a; b] => KTuple [b; a] | _ => KNone end) (number z (map KText l))) = Some (dict_of (Pem.enum_swap z l)).
Proof. induction l as [|t l IH]; intro z; [reflexivity|]. cbn [map number items_of Pem.enum_swap dict_of fst snd]. rewrite IH. reflexivity. Qed.

(** ** The functions *)

Definition pem_result (o : list pv) (r : Base64.res (Z * Pem.substrate) * Text.text) : out pv :=
  match r with
  | (Base64.Ok (i, s), f) => Val (KTuple [KInt i; of_substrate s]) (mkIO f o)
  | (Base64.Err e, f) => Throw (Binascii e) (mkIO f o)
  end.
Lemma mapM_values : forall {A B} (f : A -> M B) (g : A -> B) l, (forall a s, In a l -> f a s = Val (g a) s) -> forall s, mapM f l s = Val (map g l) s.
Proof.
  intros A B f g. induction l as [|a l IH]; intros H s; [reflexivity|]. cbn [mapM map]. erewrite bind_val; [|apply H; left; reflexivity].
  erewrite bind_val; [reflexivity|]. apply IH. intros b s' I. apply H. right. exact I.
Qed.

Definition swapping (k : Z) : px := XCall (XName "dict") [XComp (XTuple [XSub (XName "x") (XInt 1); XSub (XName "x") (XInt 0)]) "x"
  (XCall (XName "enumerate") [XComp (XSub (XName "y") (XInt k)) "y" (XName "markers")] [])] [].
Definition swap (v : pv) : pv := match v with KTuple [a; b] => KTuple [b; a] | _ => KNone end.
Lemma number_pairs : forall l z v, In v (number z l) -> exists a b, v = KTuple [a; b].
Proof. induction l as [|x l IH]; intros z v I; [destruct I|]. destruct I as [<-|I]; [eauto|exact (IH _ _ I)]. Qed.
Lemma swapping_runs : forall E m k (g : Text.text * Text.text -> Text.text) s, var E "markers" = Some (KTuple (map pair_of m)) -> var E "dict" = None -> var E "enumerate" = None ->
  (forall q, nth_error [KText (fst q); KText (snd q)] (Z.to_nat k) = Some (KText (g q))) -> Z.ltb k 0 = false ->
  eval W argv pem pem_globals E (swapping k) s = Val (KDict (dict_of (Pem.enum_swap 0 (map g m)))) s.
Proof.
  intros E m k g s HM HD HE HG HK. unfold swapping. cbn [eval].
  assert (D : name pem_globals E "dict" = Some (KName "dict")) by (unfold name; rewrite HD; reflexivity).
  assert (N : name pem_globals E "enumerate" = Some (KName "enumerate")) by (unfold name; rewrite HE; reflexivity).
  assert (K : name pem_globals E "markers" = Some (KTuple (map pair_of m))) by (unfold name; rewrite HM; reflexivity).
  rewrite D, N, K. unfold bind, of_some, ret. cbv beta iota.
  match goal with |- context [mapM ?f (map pair_of m) s] => rewrite (mapM_values f (fun v => match v with KTuple [a; b] => match nth_error [a; b] (Z.to_nat k) with Some w => w | None => KNone end | _ => KNone end)) end.
  2: { intros a s0 I. apply in_map_iff in I. destruct I as (q & <- & _). cbn [name var String.eqb Ascii.eqb Bool.eqb]. cbv beta iota.
       unfold pair_of. cbn [subscript]. rewrite HK. rewrite HG. reflexivity. }
  cbv beta iota. cbn [calls builtin String.eqb Ascii.eqb Bool.eqb]. unfold ret. cbv beta iota.
  match goal with |- context [mapM ?f (number 0 ?l) s] => rewrite (mapM_values f swap) end.
  2: { intros a s0 I. apply number_pairs in I. destruct I as (u & w & ->). reflexivity. }
  cbv beta iota. cbn [calls builtin String.eqb Ascii.eqb Bool.eqb]. unfold bind, of_some, ret. cbv beta iota.
  match goal with |- context [items_of ?l] => assert (I : items_of l = Some (dict_of (Pem.enum_swap 0 (map g m)))) end.
  { rewrite <- (numbered (map g m) 0). f_equal. rewrite !map_map. f_equal. f_equal. apply map_ext. intro q. unfold pair_of. rewrite HG. reflexivity. }
  rewrite I. reflexivity.
Qed.
Lemma blocks_source : forall m f o, (List.length f < n)%nat ->
  call_pem W argv n pem "readPemBlocksFromFile" (KFile :: map pair_of m) [] (mkIO f o) = pem_result o (Pem.readPemBlocksFromFile m f).
Proof.
  intros m f o L. unfold call_pem.
  assert (D : exists b, definition pem_py "readPemBlocksFromFile" = Some ([("fileObj", None)], Some "markers", b) /\
    b = [PAssign ["startMarkers"] (swapping 0); PAssign ["stopMarkers"] (swapping 1); PAssign ["idx"] (XNeg (XInt 1)); PAssign ["substrate"] (XStr "");
         PAssign ["certLines"] (XList []); PAssign ["state"] (XName "stSpam"); PWhile XTrue the_loop; PReturn (XTuple [XName "idx"; XName "substrate"])]).
  { eexists. split; reflexivity. }
  destruct D as (b & -> & ->). rewrite (bind_val _ _ _ _ _ (pem_top _)). cbv iota.
  rewrite (bind_val _ _ _ [("fileObj", KFile); ("markers", KTuple (map pair_of m))] (mkIO f o)) by reflexivity.
  pose proof (loop_runs m n (-1) [] Pem.stSpam [] f o (or_introl eq_refl)) as (E' & Q & P).
  unfold Pem.readPemBlocksFromFile. rewrite (PemFacts.loop_run (S (List.length f))) by lia. rewrite (PemFacts.loop_run n) in Q, P by exact L.
  set (r := PemFacts.run m (Pem.mkL (-1) [] Pem.stSpam) (PemFacts.split_lines f)) in *. clearbody r.
  destruct r as [r rest]. cbn [fst snd] in *.
  assert (H : forall g, block W argv pem n pem_globals [("fileObj", KFile); ("markers", KTuple (map pair_of m))]
    ([PAssign ["startMarkers"] (swapping 0); PAssign ["stopMarkers"] (swapping 1); PAssign ["idx"] (XNeg (XInt 1)); PAssign ["substrate"] (XStr "");
         PAssign ["certLines"] (XList []); PAssign ["state"] (XName "stSpam")] ++ g) (mkIO f o)
    = block W argv pem n pem_globals (locs m (-1) (KText []) [] Pem.stSpam []) g (mkIO f o)).
  { intro g. cbn [app].
    erewrite seq; [|cbn [exec]; erewrite bind_val; [reflexivity|apply (swapping_runs _ m 0 fst); reflexivity]].
    erewrite seq; [|cbn [exec]; erewrite bind_val; [reflexivity|apply (swapping_runs _ m 1 snd); reflexivity]].
    do 4 (erewrite seq; [|cbn [exec]; erewrite bind_val; reflexivity]). reflexivity. }
  specialize (H [PWhile XTrue the_loop; PReturn (XTuple [XName "idx"; XName "substrate"])]). cbn [app] in H.
  unfold bind at 1. rewrite H. clear H.
  destruct r as [[j s]|e].
  - erewrite seq; [|rewrite exec_while; exact Q]. destruct (P j s _ eq_refl) as (ls' & st' & l' & ->). reflexivity.
  - erewrite seq_throw; [|rewrite exec_while; exact Q]. reflexivity.
Qed.
Lemma text_source : forall t o f, call_pem W argv n pem "readBase64fromText" [KText t] [] (mkIO f o) =
  match Pem.readBase64fromText t with Base64.Ok b => Val (KBytes b) (mkIO f o) | Base64.Err e => Throw (Binascii e) (mkIO f o) end.
Proof.
  intros t o f. unfold call_pem. cbn [definition pem_py String.eqb Ascii.eqb Bool.eqb]. rewrite (bind_val _ _ _ _ _ (pem_top _)). cbv iota.
  rewrite (bind_val _ _ _ [("text", KText t)] (mkIO f o)) by reflexivity.
  match goal with |- bind (block _ _ _ _ _ _ [?x]) _ _ = _ => assert (H : run [("text", KText t)] x (mkIO f o) =
    match Pem.readBase64fromText t with Base64.Ok b => Val ([("text", KText t)], Return (KBytes b)) (mkIO f o) | Base64.Err e => Throw (Binascii e) (mkIO f o) end) end.
  { ev. rewrite b64decode_utf8. unfold Text.char. match goal with |- context [if ?b then _ else _] => destruct b end; ev; [reflexivity|].
    destruct (Base64.a2b 0 0 0 (utf8 t)); ev; reflexivity. }
  destruct (Pem.readBase64fromText t) as [b|e].
  - erewrite bind_val; [|apply (seq_end _ _ _ _ _ _ _ _ H); discriminate]. reflexivity.
  - apply bind_throw. apply seq_throw. exact H.
Qed.

Definition file_result (o : list pv) (r : Base64.res Pem.substrate * Text.text) : out pv :=
  match r with (Base64.Ok s, f) => Val (of_substrate s) (mkIO f o) | (Base64.Err e, f) => Throw (Binascii e) (mkIO f o) end.
Definition base64_result (o : list pv) (r : Base64.res bytes * Text.text) : out pv :=
  match r with (Base64.Ok b, f) => Val (KBytes b) (mkIO f o) | (Base64.Err e, f) => Throw (Binascii e) (mkIO f o) end.

Section calling.
Hypothesis calls_blocks : forall a b f o, (List.length f < n)%nat ->
  pem "readPemBlocksFromFile" [KFile; KTuple [KText a; KText b]] [] (mkIO f o) = pem_result o (Pem.readPemBlocksFromFile [(a, b)] f).
Hypothesis calls_text : forall t o f, pem "readBase64fromText" [KText t] [] (mkIO f o) =
  match Pem.readBase64fromText t with Base64.Ok b => Val (KBytes b) (mkIO f o) | Base64.Err e => Throw (Binascii e) (mkIO f o) end.

(** With both markers, with the first, with none. *)
Definition begin_certificate := chars "-----BEGIN CERTIFICATE-----".
Definition end_certificate := chars "-----END CERTIFICATE-----".
Lemma file_source : forall args a b f o, (List.length f < n)%nat ->
  In (args, (a, b)) [([a; b], (a, b)); ([a], (a, end_certificate)); ([], (begin_certificate, end_certificate))] ->
  call_pem W argv n pem "readPemFromFile" (KFile :: map KText args) [] (mkIO f o) = file_result o (Pem.readPemFromFile a b f).
Proof.
  intros args a b f o L I. unfold call_pem. cbn [definition pem_py String.eqb Ascii.eqb Bool.eqb]. rewrite (bind_val _ _ _ _ _ (pem_top _)). cbv iota.
  rewrite (bind_val _ _ _ [("fileObj", KFile); ("startMarker", KText a); ("endMarker", KText b)] (mkIO f o)).
  2: { destruct I as [I|[I|[I|[]]]]; injection I as <-; subst; reflexivity. }
  unfold Pem.readPemFromFile. pose proof (calls_blocks a b f o L) as C. destruct (Pem.readPemBlocksFromFile [(a, b)] f) as [[[i s]|e] f'].
  - match goal with |- bind (block _ _ _ _ _ ?E [?x; _]) _ _ = _ =>
      assert (H : run E x (mkIO f o) = Val (E ++ [("idx", KInt i); ("substrate", of_substrate s)], Next) (mkIO f' o)) end.
    { cbn [exec]. rewrite (bind_val _ _ _ (KTuple [KInt i; of_substrate s]) (mkIO f' o)); [reflexivity|exact C]. }
    erewrite bind_val; [|rewrite (seq _ _ _ _ _ _ _ H); reflexivity]. reflexivity.
  - apply bind_throw, seq_throw. cbn [exec]. apply bind_throw. exact C.
Qed.
Lemma base64_source : forall f o, call_pem W argv n pem "readBase64FromFile" [KFile] [] (mkIO f o) = base64_result o (Pem.readBase64FromFile f).
Proof.
  intros f o. unfold call_pem. cbn [definition pem_py String.eqb Ascii.eqb Bool.eqb]. rewrite (bind_val _ _ _ _ _ (pem_top _)). cbv iota.
  rewrite (bind_val _ _ _ [("fileObj", KFile)] (mkIO f o)) by reflexivity.
  unfold Pem.readBase64FromFile. pose proof (calls_text f o []) as C. destruct (Pem.readBase64fromText f) as [b|e]; cbn [base64_result].
  - erewrite bind_val; [|eapply seq_end; [cbn [exec]; erewrite bind_val; [reflexivity|exact C]|discriminate]]. reflexivity.
  - apply bind_throw, seq_throw. cbn [exec]. apply bind_throw. exact C.
Qed.
End calling.
End codec.

(** The functions as the tools call them. *)
Section codec.
Context {Cdc : codec}.
Lemma pem_blocks : forall W argv n m f o, (List.length f < n)%nat ->
  pem_calls W argv n "readPemBlocksFromFile" (KFile :: map pair_of m) [] (mkIO f o) = pem_result o (Pem.readPemBlocksFromFile m f).
Proof. intros W argv n m f o L. exact (blocks_source W argv _ n m f o L). Qed.
Lemma pem_file : forall W argv n args a b f o, (List.length f < n)%nat ->
  In (args, (a, b)) [([a; b], (a, b)); ([a], (a, end_certificate)); ([], (begin_certificate, end_certificate))] ->
  pem_calls W argv n "readPemFromFile" (KFile :: map KText args) [] (mkIO f o) = file_result o (Pem.readPemFromFile a b f).
Proof.
  intros W argv n args a b f o L I. apply file_source; [|exact L|exact I]. intros a' b' f' o' L'. exact (blocks_source W argv _ n [(a', b')] f' o' L').
Qed.
Lemma pem_text : forall W argv n t f o, pem_calls W argv n "readBase64fromText" [KText t] [] (mkIO f o) =
  match Pem.readBase64fromText t with Base64.Ok b => Val (KBytes b) (mkIO f o) | Base64.Err e => Throw (Binascii e) (mkIO f o) end.
Proof. intros W argv n t f o. exact (text_source W argv _ n t o f). Qed.
Lemma pem_base64 : forall W argv n f o, pem_calls W argv n "readBase64FromFile" [KFile] [] (mkIO f o) = base64_result o (Pem.readBase64FromFile f).
Proof. intros W argv n f o. apply base64_source. intros t o' f'. exact (text_source W argv _ n t o' f'). Qed.
End codec.
