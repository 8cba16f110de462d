(** When a pyasn1 schema object is the image of an ASN.1 type, decided by computation, and
    what follows: pyasn1's encoder then produces the encoding of X.690. *)
From Coq Require Import List String ZArith NArith Bool Lia.
From Verif Require Import Asn1.Types Py.Eval Asn1.EqbFacts Asn1.Bytes Asn1.Charset Asn1.Der Spec.X680 Spec.X690 Spec.Octets Spec.Spelling.
Import ListNotations.
Open Scope string_scope.
Open Scope list_scope.

(** ** Agreement *)

Definition tag_is (t : tclass * N) (g : tag) : bool := tclass_eqb (fst t) (tcls g) && N.eqb (snd t) (tnum g).
Fixpoint all2 {A B} (f : A -> B -> bool) (a : list A) (b : list B) : bool :=
  match a, b with
  | [], [] => true
  | x :: a', y :: b' => f x y && all2 f a' b'
  | _, _ => false
  end.
(** Tags of a constructed type: all headers are constructed. *)
Definition con_tags (ts : list (tclass * N)) (gs : list tag) : bool := all2 tag_is ts gs.
(** Tags around a primitive contents, or around an ANY. *)
Definition out_tags (ts : list (tclass * N)) (gs : list tag) : bool := all2 (fun t g => tag_is t g && tcons g) ts gs.
Definition prim_tags (ts : list (tclass * N)) (gs : list tag) : bool :=
  match ts, gs with
  | t :: ts', g :: gs' => tag_is t g && negb (tcons g) && out_tags ts' gs'
  | _, _ => false
  end.
Definition bare (over : option (tclass * N)) : list (tclass * N) := match over with Some t => [t] | None => [] end.

Definition same_prim (p : sprim) (k : prim) : bool :=
  match p, k with
  | PBool, KBool | PInt _, KInt | PEnum _, KEnum | PBits _, KBits | POcts, KOcts | PNull, KNull | POid, KOid => true
  | PStr a, KStr b => prim_eqb (KStr a) (KStr b)
  | _, _ => false
  end.
(** pyasn1's Boolean is an Integer with named values restricted to 0 and 1; Null is restricted
    to the empty string. *)
Definition prim_names (p : sprim) : named :=
  match p with PInt l | PEnum l | PBits l => l | PBool => [("False", 0%Z); ("True", 1%Z)] | _ => [] end.
Definition built_in (p : sprim) : list scon := match p with PBool => [ValuesC [CVInt 0; CVInt 1]] | PNull => [ValuesC [CVStr []]] | _ => [] end.
(** Constraints: the conjuncts of a pyasn1 constraint. *)
Fixpoint atoms (c : cons) : list cons :=
  match c with
  | CInter l => (fix go (l : list cons) : list cons := match l with [] => [] | c :: l' => atoms c ++ go l' end) l
  | CUnion [] => []
  | _ => [c]
  end.
Definition same_hi (h : option N) (k : option Z) : bool :=
  match h, k with Some a, Some b => Z.eqb (Z.of_N a) b | None, None => true | _, _ => false end.
(** The constraints of a union, when they are all lengths or all values. *)
Definition lengths (l : list cons) : list (option Z) :=
  map (fun c => match c with CSize a (Some b) => if Z.eqb a b then Some a else None | _ => None end) l.
Fixpoint singles (l : list cons) : option (list cval) :=
  match l with
  | [] => Some []
  | CSingle a :: l' => match singles l' with Some b => Some (a ++ b) | None => None end
  | _ => None
  end.
Definition same_con (s : scon) (c : cons) : bool :=
  match s, c with
  | SizeC lo hi, CSize l h => Z.eqb (Z.of_N lo) l && same_hi hi h
  | RangeC (Some lo) hi, CRange l h => Z.eqb lo l && opt_eqb Z.eqb hi h
  | ValuesC l, CSingle l' => list_eqb cval_eqb l l'
  | ValuesC l, CUnion (u :: us) => match singles (u :: us) with Some l' => list_eqb cval_eqb l l' | None => false end
  | SizesC l, CUnion (u :: us) => list_eqb (opt_eqb Z.eqb) (map (fun n => Some (Z.of_N n)) l) (lengths (u :: us))
  | FromC l, CAlpha l' => list_eqb N.eqb l l'
  | _, _ => false
  end.
(** Every value satisfying [s] satisfies [c]. *)
Definition below (h : option N) (k : option Z) : bool :=
  match h, k with _, None => true | Some a, Some b => Z.leb (Z.of_N a) b | None, Some _ => false end.
Definition stronger (s : scon) (c : cons) : bool :=
  match s, c with
  | SizeC lo hi, CSize l h => Z.leb l (Z.of_N lo) && below hi h
  | _, _ => false
  end.
Definition cons_same (cs : list scon) (c : cons) : bool :=
  forallb (fun a => existsb (fun s => same_con s a) cs) (atoms c) && forallb (fun s => existsb (same_con s) (atoms c)) cs.
Definition cons_weaker (cs : list scon) (c : cons) : bool :=
  forallb (fun a => existsb (fun s => stronger s a) cs) (atoms c).

(** The sort keys pyasn1 uses for the components of a SET differ only in the last (the
    outermost) tag. *)
Fixpoint prefixed (base gs : list tag) : bool :=
  match base, gs with
  | [], [_] => true
  | b :: base', g :: gs' => tag_eqb b g && Bool.eqb (tcons b) (tcons g) && prefixed base' gs'
  | _, _ => false
  end.
Definition one_tag (base : list tag) (t : asn1) : bool :=
  match t with
  | TChoice m alts =>
      match tags m with
      | [] => forallb (fun f => prefixed base (tags (meta_of (ftype f)))) alts
      | _ => prefixed base (tags m)
      end
  | _ => prefixed base (tags (meta_of t))
  end.
Definition base_of (gs : list field) : list tag := match gs with g :: _ => removelast (tags (meta_of (ftype g))) | [] => [] end.

Definition same_need (p : need) (q : presence) (d : option aval) : bool :=
  match p, q with
  | Mandatory, Req | Optional, Opt => true
  | Default v, Def => match d with Some w => aval_eqb v w | None => false end
  | _, _ => false
  end.

(** WITH COMPONENTS: pyasn1 names the components; some classes of /repo instead count the
    components that are present. *)
Fixpoint index (n : string) (l : list string) : option nat :=
  match l with [] => None | m :: l' => if String.eqb m n then Some O else option_map S (index n l') end.
Definition row_is (names : list string) (row : list (nat * bool)) (c : cons) : bool :=
  match c with
  | CWith l => all2 (fun p (q : string * bool) => opt_eqb Nat.eqb (index (fst q) names) (Some (fst p)) && Bool.eqb (snd p) (snd q)) row l
  | _ => false
  end.
Definition with_is (names : list string) (rows : list (list (nat * bool))) (c : cons) : bool :=
  match atoms c with
  | [CUnion (u :: us)] => all2 (row_is names) rows (u :: us)
  | [CSize lo (Some hi)] =>
      Z.eqb lo 1 && Z.eqb hi (Z.of_nat (List.length names))
      && all2 (fun r i => match r with [(j, true)] => Nat.eqb j i | _ => false end) rows (seq 0 (List.length names))
  | _ => false
  end.

(** Components left out of the comparison: optional components and alternatives of which the
    type is not looked at; components of which OPTIONAL or DEFAULT is not looked at, when
    only values other than those given are of interest. *)
Inductive exempt := Without (n : string) | Explicit (n : string) (l : list aval).
Definition spared (sk : list exempt) (n : string) : bool :=
  existsb (fun e => match e with Without m => String.eqb m n | _ => false end) sk.
Fixpoint excluded (sk : list exempt) (n : string) : option (list aval) :=
  match sk with
  | [] => None
  | Explicit m l :: sk' => if String.eqb m n then Some l else excluded sk' n
  | _ :: sk' => excluded sk' n
  end.
(** Whatever the presence, values outside [l] are encoded. *)
Definition shows (l : list aval) (q : presence) (d : option aval) : bool :=
  match q with
  | Def => match d with Some w => existsb (aval_eqb w) l | None => false end
  | _ => true
  end.
Definition need_ok (sk : list exempt) (n : string) (p : need) (q : presence) (d : option aval) : bool :=
  match excluded sk n with
  | Some l => shows l q d
  | None => same_need p q d
  end.

Section agree.
  Variable sk : list exempt.
  (** What is compared besides the encoding: component names and named numbers; bounds. *)
  Variables nm bd : bool.

  Definition seq_cons (cs : list scon) (names : list string) (c : cons) : bool :=
    if ctruthy c then match cs with [WithC rows] => with_is names rows c | _ => false end
    else negb bd || match cs with [] => true | _ => false end.

  (** [over]: tag put by implicit tagging; [acc]: explicit tags outside, innermost first;
      [cs]: constraints met on the way. *)
  Fixpoint agrees_but (s : sty) (over : option (tclass * N)) (acc : list (tclass * N)) (cs : list scon) (t : asn1) {struct s} : bool :=
    match s, t with
    | ATag c n true s', _ => agrees_but s' None (pick over (c, n) :: acc) cs t
    | ATag c n false s', _ => agrees_but s' (Some (pick over (c, n))) acc cs t
    | ACon c s', _ => agrees_but s' over acc (c :: cs) t
    | APrim p, TPrim k m =>
        same_prim p k && prim_tags (pick over (Universal, universal p) :: acc) (tags m)
        && (negb nm || same_names (prim_names p) (nvals m)) && (negb bd || cons_same (built_in p ++ cs) (spec m))
    | AAny, TPrim KAny m => out_tags (bare over ++ acc) (tags m) && (negb bd || cons_same cs (spec m))
    | ASeq fs, TSeq false m gs | ASet fs, TSeq true m gs =>
        let set := match s with ASet _ => true | _ => false end in
        con_tags (pick over (Universal, if set then 17 else 16)%N :: acc) (tags m)
        && seq_cons cs (fnames gs) (spec m)
        && (negb set || forallb (fun g => one_tag (base_of gs) (ftype g)) gs)
        && (fix go (fs : list sfield) (gs : list field) {struct fs} : bool :=
              match fs, gs with
              | [], [] => true
              | SF n p s' :: fs', Fld n' q t' d _ :: gs' =>
                  (negb nm || same_name n n') && need_ok sk n p q d && (if spared sk n then true else agrees_but s' None [] [] t') && go fs' gs'
              | _, _ => false
              end) fs gs
    | ASeqOf s', TOf false m (Some t') | ASetOf s', TOf true m (Some t') =>
        let set := match s with ASetOf _ => true | _ => false end in
        con_tags (pick over (Universal, if set then 17 else 16)%N :: acc) (tags m)
        && cons_weaker cs (spec m) && (negb bd || cons_same cs (spec m))
        && agrees_but s' None [] [] t'
    | AChoice fs, TChoice m gs =>
        con_tags (bare over ++ acc) (tags m) && (negb bd || match cs with [] => true | _ => false end)
        && (fix go (fs : list sfield) (gs : list field) {struct fs} : bool :=
              match fs, gs with
              | [], [] => true
              | [], _ => negb nm || forallb (fun g => is_added (fname g)) gs
              | SF n p s' :: fs', Fld n' _ t' _ _ :: gs' =>
                  (negb nm || same_name n n') && (if spared sk n then true else agrees_but s' None [] [] t') && go fs' gs'
              | _, _ => false
              end) fs gs
    | _, _ => false
    end.
End agree.
Notation agrees := (agrees_but []).

(** [t] has the encoding of [s]; and its component names and named numbers; and its bounds. *)
Definition has_wire (s : sty) (t : asn1) : bool := agrees false false s None [] [] t.
Definition has_names (s : sty) (t : asn1) : bool := agrees true false s None [] [] t.
Definition has_bounds (s : sty) (t : asn1) : bool := agrees false true s None [] [] t.

(** ** Values whose encoding pyasn1 gets right whatever the type

    The exceptions, each refuted in Props/SpecProps.v: integers -2^(8k-1); trailing 0 bits of a
    BIT STRING with named bits; zeros in, or more than three digits of, fractions of seconds; and OPTIONAL components that
    are present but empty.  [ine]: inside an OPTIONAL component (pyasn1's ifNotEmpty). *)
Definition regular_time (t : list N) : bool :=
  match split_at_dot t with
  | (_, None) => true
  | (_, Some f) => negb (existsb (N.eqb 48) f) && Nat.leb (List.length f) 4
  end.
Definition regular_prim (p : sprim) (v : aval) : bool :=
  match p, v with
  | (PInt _ | PEnum _), VInt z => shortest z
  | PBits (_ :: _), VBits l => last l true
  | PStr SGenTime, VText t => regular_time t
  | _, _ => true
  end.
Definition encoded (p : need) (o : option aval) : bool :=
  match o, p with
  | None, _ => false
  | Some x, Default d => negb (aval_eqb x d)
  | Some _, _ => true
  end.
Fixpoint regular (ine : bool) (s : sty) (v : aval) {struct s} : bool :=
  match s with
  | APrim p => regular_prim p v
  | AAny => true
  | ASeq fs | ASet fs =>
      match v with
      | VSeq vs =>
          (fix go (fs : list sfield) (vs : list (option aval)) {struct fs} : bool :=
             match fs, vs with
             | SF _ p s' :: fs', o :: vs' =>
                 match o with
                 | Some x => negb (encoded p o) || regular match p with Optional => true | _ => false end s' x
                 | None => true
                 end && go fs' vs'
             | _, _ => true
             end) fs vs
          && (negb ine
              || (fix some (fs : list sfield) (vs : list (option aval)) {struct fs} : bool :=
                    match fs, vs with
                    | SF _ p _ :: fs', o :: vs' => encoded p o || some fs' vs'
                    | _, _ => false
                    end) fs vs)
      | _ => true
      end
  | ASeqOf s' | ASetOf s' =>
      match v with
      | VList vs => forallb (regular ine s') vs && (negb ine || match vs with [] => false | _ => true end)
      | _ => true
      end
  | AChoice alts =>
      match v with
      | VAlt i x =>
          (fix go (fs : list sfield) (i : nat) {struct fs} : bool :=
             match fs, i with
             | SF _ _ s' :: _, O => regular ine s' x
             | _ :: fs', S i' => go fs' i'
             | [], _ => true
             end) alts i
      | _ => true
      end
  | ATag _ _ _ s' => regular ine s' v
  | ACon _ s' => regular ine s' v
  end.

(** The values that do not use the components left out of a comparison. *)
Section spares.
  Variable sk : list exempt.
  Definition slot_spares (spares : aval -> bool) (n : string) (p : need) (s : sty) (o : option aval) : bool :=
    match o with
    | Some x =>
        if encoded p o then
          match excluded sk n with
          | Some l => negb (existsb (aval_eqb x) l) && regular true s x
          | None => true
          end && (if spared sk n then false else spares x)
        else match excluded sk n with Some _ => false | None => spares x end
    | None => match excluded sk n with Some _ => false | None => true end
    end.
  Fixpoint spares (s : sty) (v : aval) {struct s} : bool :=
    match s with
    | APrim _ | AAny => true
    | ASeq fs | ASet fs =>
        match v with
        | VSeq vs =>
            (fix go (fs : list sfield) (vs : list (option aval)) {struct fs} : bool :=
               match fs, vs with
               | SF n p s' :: fs', o :: vs' => slot_spares (spares s') n p s' o && go fs' vs'
               | _, _ => true
               end) fs vs
        | _ => true
        end
    | ASeqOf s' | ASetOf s' => match v with VList vs => forallb (spares s') vs | _ => true end
    | AChoice alts =>
        match v with
        | VAlt i x =>
            (fix go (fs : list sfield) (i : nat) {struct fs} : bool :=
               match fs, i with
               | SF n _ s' :: _, O => if spared sk n then false else spares s' x
               | _ :: fs', S i' => go fs' i'
               | [], _ => true
               end) alts i
        | _ => true
        end
    | ATag _ _ _ s' => spares s' v
    | ACon _ s' => spares s' v
    end.
End spares.

(** ** Headers *)

Definition huge (o : option (list N)) : res bytes := match o with Some b => Ok b | None => Huge end.
(** Explicit tags, innermost first. *)
Fixpoint outer (ts : list (tclass * N)) (o : option (list N)) : option (list N) :=
  match ts with [] => o | t :: ts' => outer ts' (emit t true o) end.
Lemma outer_none : forall ts, outer ts None = None.
Proof. induction ts as [|t ts IH]; [reflexivity|]. exact IH. Qed.

Lemma tclass_eqb_ok : forall a b, tclass_eqb a b = true -> a = b.
Proof. intros [] []; cbn; congruence. Qed.
Lemma tag_is_ok : forall t g, tag_is t g = true -> fst t = tcls g /\ snd t = tnum g.
Proof.
  intros t g H. apply andb_true_iff in H. destruct H as [A B]. split; [apply tclass_eqb_ok, A|apply N.eqb_eq, B].
Qed.
Lemma put_spec : forall t g k kk c, tag_is t g = true -> (tcons g || k)%bool = kk -> put_header g k c = huge (emit t kk (Some c)).
Proof.
  intros t g k kk c T K. destruct (tag_is_ok _ _ T) as [A B]. unfold put_header, emit. rewrite header_spec, K, A, B.
  destruct (tlv (tcls g) (tnum g) kk c); reflexivity.
Qed.
Lemma wrap_spec : forall ts gs k, all2 (fun t g => tag_is t g && (tcons g || k)) ts gs = true ->
  forall c, wrap gs k c = huge (outer ts (Some c)).
Proof.
  induction ts as [|t ts IH]; intros [|g gs] k H c; try discriminate; [reflexivity|].
  cbn [all2] in H. rewrite !andb_true_iff in H. destruct H as [[H K] HS]. cbn [wrap outer].
  rewrite (put_spec t g k true c H K). destruct (emit t true (Some c)) as [c'|]; cbn [huge rbind].
  - apply (IH gs k HS).
  - rewrite outer_none. reflexivity.
Qed.
Lemma all2_weaken : forall A B (f g : A -> B -> bool), (forall a b, f a b = true -> g a b = true) ->
  forall l m, all2 f l m = true -> all2 g l m = true.
Proof.
  intros A B f g H l. induction l as [|a l IH]; intros [|b m] K; try discriminate; [reflexivity|].
  cbn [all2] in *. apply andb_true_iff in K. destruct K as [K L]. rewrite (H _ _ K), (IH _ L). reflexivity.
Qed.
Lemma con_wrap : forall ts gs c, con_tags ts gs = true -> wrap gs true c = huge (outer ts (Some c)).
Proof.
  intros ts gs c H. apply wrap_spec. revert H. apply all2_weaken. intros t g K. rewrite K, orb_true_r. reflexivity.
Qed.
Lemma out_wrap : forall ts gs c, out_tags ts gs = true -> wrap gs false c = huge (outer ts (Some c)).
Proof.
  intros ts gs c H. apply wrap_spec. revert H. apply all2_weaken. intros t g K. rewrite orb_false_r. exact K.
Qed.
Lemma prim_wrap : forall t ts gs c, prim_tags (t :: ts) gs = true -> wrap gs false c = huge (outer ts (emit t false (Some c))).
Proof.
  intros t ts [|g gs] c H; [discriminate|]. cbn [prim_tags] in H. rewrite !andb_true_iff in H. destruct H as [[H K] HS].
  cbn [wrap]. rewrite (put_spec t g false false c H); [|rewrite orb_false_r; apply negb_true_iff, K].
  destruct (emit t false (Some c)) as [c'|]; cbn [huge rbind]; [apply out_wrap, HS|]. rewrite outer_none. reflexivity.
Qed.
Lemma finish_prim : forall ts ine c, finish ts false ine c = wrap ts false c.
Proof. intros [|t ts] ine [|x c]; reflexivity. Qed.
Lemma finish_con : forall ts ine c, (ine = true -> c <> []) -> finish ts true ine c = wrap ts true c.
Proof. intros [|t ts] [] [|x c] H; try reflexivity. exfalso. exact (H eq_refl eq_refl). Qed.

(** ** Primitive contents *)

Lemma split_same : forall t, split_dot t = match split_at_dot t with (a, Some f) => Some (a, f) | (_, None) => None end.
Proof.
  induction t as [|c t IH]; [reflexivity|]. cbn [split_dot split_at_dot]. destruct (N.eqb c 46); [reflexivity|]. rewrite IH.
  destruct (split_at_dot t) as [a [f|]]; reflexivity.
Qed.
Lemma split_join : forall t, t = match split_at_dot t with (a, None) => a | (a, Some f) => a ++ 46%N :: f end.
Proof.
  induction t as [|c t IH]; [reflexivity|]. cbn [split_at_dot]. destruct (N.eqb_spec c 46) as [->|E]; [reflexivity|].
  destruct (split_at_dot t) as [a [f|]]; rewrite IH at 1; reflexivity.
Qed.
Lemma digit_range : forall c, digit c = true -> (48 <= c <= 57)%N.
Proof. intros c H. unfold digit, between in H. rewrite andb_true_iff, !N.leb_le in H. exact H. Qed.
Definition time_char (c : N) : bool := digit c || N.eqb c 46 || N.eqb c 90.
Lemma no_signs : forall t, forallb time_char t = true -> existsb (fun c => (N.eqb c 43) || (N.eqb c 45) || (N.eqb c 44)) t = false.
Proof.
  intros t H. apply not_true_is_false. intro E. apply existsb_exists in E. destruct E as (c & I & E).
  pose proof (proj1 (forallb_forall _ _) H c I) as K. unfold time_char in K. rewrite !orb_true_iff, !N.eqb_eq in *.
  destruct K as [[K|K]|K]; [apply digit_range in K|..]; lia.
Qed.
Lemma digits_z : forall n t, List.length t = S n -> forallb digit (firstn n t) = true -> last t 0%N = 90%N ->
  exists d, t = d ++ [90%N] /\ forallb digit d = true /\ List.length d = n.
Proof.
  intros n t L D Z. destruct (exists_last (l := t)) as (d & z & ->). { intro E; subst; discriminate. }
  rewrite last_last in Z. subst z. rewrite app_length in L. cbn [List.length] in L. assert (N : List.length d = n) by lia.
  exists d. repeat split; try assumption. subst n. rewrite firstn_app, Nat.sub_diag, firstn_all in D. cbn [firstn] in D.
  rewrite app_nil_r in D. exact D.
Qed.
Lemma digit_time : forall d, forallb digit d = true -> forallb time_char d = true.
Proof.
  intros d H. apply forallb_forall. intros c I. unfold time_char. rewrite (proj1 (forallb_forall _ _) H c I). reflexivity.
Qed.
Lemma no_dot : forall d z, forallb digit d = true -> z <> 46%N -> split_at_dot (d ++ [z]) = (d ++ [z], None).
Proof.
  induction d as [|c d IH]; intros z H Z; cbn [app split_at_dot].
  - destruct (N.eqb_spec z 46); [contradiction|]. reflexivity.
  - cbn [forallb] in H. apply andb_true_iff in H. destruct H as [C H]. destruct (N.eqb_spec c 46) as [->|E]; [discriminate C|].
    rewrite (IH z H Z). reflexivity.
Qed.

Lemma utc_norm : forall t, utc_time t = true -> norm_time 10 14 t = Ok t.
Proof.
  intros t H. unfold utc_time in H. rewrite !andb_true_iff, Nat.eqb_eq, N.eqb_eq in H. destruct H as [[L D] Z].
  destruct (digits_z 12 t L D Z) as (d & -> & DD & N). unfold norm_time.
  rewrite no_signs; [|rewrite forallb_app, (digit_time d DD); reflexivity].
  rewrite last_last. cbn [N.eqb Pos.eqb negb]. unfold drop_zeros. rewrite split_same, (no_dot d 90 DD) by discriminate. cbn [rbind].
  rewrite L. reflexivity.
Qed.
Lemma firstn_filter_id : forall f, existsb (N.eqb 48) f = false -> filter (fun c => negb (N.eqb c 48)) (firstn 4 f) ++ skipn 4 f = f.
Proof.
  intros f H. rewrite <- (firstn_skipn 4 f) at 3. f_equal.
  assert (K : existsb (N.eqb 48) (firstn 4 f) = false).
  { apply not_true_is_false. intro E. apply existsb_exists in E. destruct E as (c & I & E).
    assert (X : existsb (N.eqb 48) f = true); [|congruence]. apply existsb_exists. exists c. split; [|exact E].
    rewrite <- (firstn_skipn 4 f). apply in_or_app. left. exact I. }
  clear H. revert K. generalize (firstn 4 f). induction l as [|c l IH]; intro K; [reflexivity|].
  cbn [existsb] in K. apply orb_false_iff in K. destruct K as [K KS]. cbn [filter]. rewrite N.eqb_sym, K. cbn [negb]. rewrite (IH KS). reflexivity.
Qed.
Lemma gen_norm : forall t, generalized_time t = true -> regular_time t = true -> norm_time 12 20 t = Ok t.
Proof.
  intros t H R. unfold generalized_time in H. unfold regular_time in R. pose proof (split_join t) as J.
  destruct (split_at_dot t) as [a [f|]] eqn:SP.
  - rewrite !andb_true_iff, Nat.eqb_eq in H. destruct H as [[L D] F]. rewrite andb_true_iff, negb_true_iff, Nat.leb_le in R. destruct R as [R1 R2].
    destruct (rev f) as [|z [|d f']] eqn:RV; try discriminate F. rewrite !andb_true_iff, N.eqb_eq in F. destruct F as (((Z & DD) & NZ) & F').
    assert (FF : f = rev f' ++ [d; z]). { rewrite <- (rev_involutive f), RV. cbn [rev]. rewrite <- app_assoc. reflexivity. }
    assert (TC : forallb time_char f = true).
    { rewrite FF, forallb_app. rewrite (digit_time (rev f')). 2:{ apply forallb_forall. intros c I. apply in_rev in I. exact (proj1 (forallb_forall _ _) F' c I). }
      cbn [forallb]. unfold time_char at 1. rewrite DD. subst z. reflexivity. }
    assert (LA : last t 0%N = 90%N).
    { rewrite J, FF. replace (a ++ 46%N :: rev f' ++ [d; z]) with ((a ++ 46%N :: rev f' ++ [d]) ++ [z]) by (rewrite <- app_assoc; cbn; rewrite <- app_assoc; reflexivity).
      rewrite last_last. exact Z. }
    unfold norm_time. rewrite no_signs; [|rewrite J, forallb_app, (digit_time a D); cbn [forallb]; rewrite TC; reflexivity].
    rewrite LA. cbn [N.eqb Pos.eqb negb]. unfold drop_zeros. rewrite split_same, SP.
    assert (ND : existsb (N.eqb 46) (firstn 4 f) = false).
    { assert (G : existsb (N.eqb 46) f = false).
      { apply not_true_is_false. intro E. apply existsb_exists in E. destruct E as (c & I & E). apply N.eqb_eq in E. subst c.
        rewrite FF in I. apply in_app_or in I. destruct I as [I|[I|[I|[]]]].
        - apply in_rev in I. pose proof (proj1 (forallb_forall _ _) F' _ I) as X. discriminate X.
        - subst d. discriminate DD.
        - subst z. discriminate. }
      apply not_true_is_false. intro E. apply existsb_exists in E. destruct E as (c & I & E).
      assert (X : existsb (N.eqb 46) f = true); [|congruence]. apply existsb_exists. exists c. split; [|exact E].
      rewrite <- (firstn_skipn 4 f). apply in_or_app. left. exact I. }
    rewrite ND, (firstn_filter_id f R1).
    assert (LT : (List.length t = 15 + List.length f)%nat) by (rewrite J, app_length; cbn [List.length]; lia).
    assert (FL : (2 <= List.length f)%nat) by (rewrite FF, app_length; cbn [List.length]; lia).
    assert (HD : exists c r, f = c :: r /\ c <> 90%N).
    { rewrite FF. destruct (rev f') as [|c r] eqn:RF.
      - exists d, [z]. split; [reflexivity|]. intro; subst d; discriminate DD.
      - exists c, (r ++ [d; z]). split; [reflexivity|]. intro; subst c. assert (I : In 90%N f') by (apply in_rev; rewrite RF; left; reflexivity).
        pose proof (proj1 (forallb_forall _ _) F' _ I) as X. discriminate X. }
    destruct HD as (c & r & FE & CN). assert (RES : match f with 90%N :: _ => Ok (a ++ f) | _ => Ok (a ++ 46%N :: f) end = Ok t).
    { rewrite FE in *. rewrite J. destruct c as [|p]; [reflexivity|]. do 7 (destruct p as [p|p|]; try reflexivity); exfalso; apply CN; reflexivity. }
    rewrite RES. cbn [rbind]. rewrite LT. destruct (Nat.ltb_spec 12 (15 + List.length f)), (Nat.ltb_spec (15 + List.length f) 20); try lia. reflexivity.
  - subst a. rewrite !andb_true_iff, Nat.eqb_eq, N.eqb_eq in H. destruct H as [[L D] Z].
    unfold norm_time. destruct (digits_z 14 t L D Z) as (d & E & DD & N).
    rewrite no_signs; [|rewrite E, forallb_app, (digit_time d DD); reflexivity].
    rewrite Z. cbn [N.eqb Pos.eqb negb]. unfold drop_zeros. rewrite split_same, SP. cbn [rbind]. rewrite L. reflexivity.
Qed.

Lemma strip_zeros_id : forall l, last l true = true -> strip_zeros l = l.
Proof.
  induction l as [|b l IH]; intro H; [reflexivity|]. destruct l as [|c l].
  - cbn in H. subst. reflexivity.
  - change (last (b :: c :: l) true) with (last (c :: l) true) in H. specialize (IH H).
    change (strip_zeros (b :: c :: l)) with (match strip_zeros (c :: l), b with [], false => [] | r, _ => b :: r end).
    rewrite IH. destruct b; reflexivity.
Qed.

Lemma str_eqb_ok : forall a b, prim_eqb (KStr a) (KStr b) = true -> a = b.
Proof. intros [] []; cbn; congruence. Qed.
Lemma prim_spec : forall p k v, same_prim p k = true -> prim_has p v = true -> regular_prim p v = true ->
  enc_prim k v = huge (contents p v).
Proof.
  intros p k v S H R. destruct p as [|l|l|l| | | |k0]; destruct k; try discriminate S; destruct v; try discriminate H;
    cbn [enc_prim contents].
  - reflexivity.
  - rewrite (int_spec z R). reflexivity.
  - rewrite (int_spec z R). reflexivity.
  - destruct l as [|q l]; [rewrite bits_spec; reflexivity|]. cbn [regular_prim] in R. rewrite (strip_zeros_id b R), bits_spec. reflexivity.
  - reflexivity.
  - reflexivity.
  - cbn [prim_has] in H. rewrite (oid_spec arcs H). destruct arcs as [|x [|y r]]; try discriminate H. reflexivity.
  - apply str_eqb_ok in S. subst s. cbn [prim_has] in H. pose proof (text_spec k0 t H) as T. unfold bytes in *.
    destruct (time_bounds k0) as [[lo hi]|] eqn:TB.
    + assert (NT : norm_time lo hi t = Ok t).
      { destruct k0; try discriminate TB; inversion TB; subst.
        - apply gen_norm; [exact H|exact R].
        - apply utc_norm. exact H. }
      rewrite NT. cbn [rbind]. rewrite T. reflexivity.
    + rewrite T. reflexivity.
Qed.
