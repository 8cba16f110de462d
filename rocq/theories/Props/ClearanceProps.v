(** Property C69: the octets of the security categories of a clearance (rfc2634.py l.170-178,
    rfc3281.py l.123-147, rfc5035.py l.114, rfc5755.py l.314-356).  The RFCs give the value of a
    category as [1] ANY, hence explicitly tagged (A1); the code tags an ANY implicitly (81).  C36
    shows that this deviates; here it is said for all values what is written instead.  The types
    are read off the loaded modules; tlv and object_identifier are those of Spec/X690.v. *)
From Coq Require Import List String ZArith NArith Bool.
From Verif Require Import Py.Syntax Asn1.Types Py.Eval Asn1.EqbFacts Asn1.Bytes Asn1.Der Load.Import Load.Computed Load.Schemas Load.CheckedFacts
  Spec.X680 Spec.X690 Spec.Octets Spec.Agree Spec.Conform Spec.Reads.
Import ListNotations.
Open Scope string_scope.
Open Scope list_scope.

(** Equality of tags, with the constructed bit (Tag.__eq__ leaves it out). *)
Definition these : list tag -> list tag -> bool := list_eqb (fun x y => tag_eqb x y && Bool.eqb (tcons x) (tcons y)).
Lemma these_eq : forall a b, these a b = true -> a = b.
Proof. exact (list_eqb_sound _ tag_sound). Qed.
(** The shape of the types, as far as it matters for encoding. *)
Definition bare (ts : list tag) (m : meta) : bool := these (tags m) ts && negb (ctruthy (spec m)).
Definition primitive_at (k : prim) (g : tag) (t : asn1) : bool :=
  match t, k with
  | TPrim KOid m, KOid => these (tags m) [g]
  | TPrim KAny m, KAny => these (tags m) [g]
  | TPrim KBits m, KBits => these (tags m) [g]
  | _, _ => false
  end.
Definition category_ok (t : asn1) : bool :=
  match t with
  | TSeq false m [Fld _ Req t1 None None; Fld _ Req t2 None _] =>
      bare [mkTag Universal true 16] m && primitive_at KOid (mkTag Context false 0) t1 && primitive_at KAny (mkTag Context false 1) t2
  | _ => false
  end.
Definition clearance_ok (p l c : tag) (t : asn1) : bool :=
  match t with
  | TSeq false m [Fld _ Req t1 None None; Fld _ Def t2 (Some (VBits [false; true])) None; Fld _ Opt (TOf true m' (Some t')) None None] =>
      bare [mkTag Universal true 16] m && primitive_at KOid p t1 && primitive_at KBits l t2 && bare [c] m' && category_ok t'
  | _ => false
  end.

Lemma one_header : forall c n k kk b s, tlv c n (k || kk) b = Some s -> wrap [mkTag c k n] kk b = Ok s.
Proof.
  intros c n k kk b s H. cbn [wrap].
  rewrite (put_spec (c, n) (mkTag c k n) kk (k || kk) b); [unfold emit; cbn [fst snd]; rewrite H; reflexivity| |reflexivity].
  unfold tag_is. cbn. rewrite N.eqb_refl. destruct c; reflexivity.
Qed.
Lemma tlv_nonempty : forall c n k b s, tlv c n k b = Some s -> s <> [].
Proof.
  intros c n k b s H. unfold tlv in H. destruct (length_octets _); [|discriminate H]. injection H as H. subst s.
  unfold identifier. destruct (n <=? 30)%N; discriminate.
Qed.
Lemma oid_at : forall t g ine a o s, primitive_at KOid g t = true -> arcs_ok a = true -> object_identifier a = Some o ->
  tlv (tcls g) (tnum g) (tcons g) o = Some s -> enc (VOid a) false ine t = Ok s.
Proof.
  intros t g ine a o s P A O T. destruct t as [k m| | |]; try discriminate P. destruct k; try discriminate P. cbn in P.
  apply these_eq in P. cbn [enc enc_prim]. rewrite (oid_spec a A), O. cbn [of_opt rbind]. rewrite finish_prim, P.
  destruct g as [c k n]. apply one_header. rewrite orb_false_r. exact T.
Qed.
Lemma any_at : forall t g opn ine b s, primitive_at KAny g t = true ->
  tlv (tcls g) (tnum g) (tcons g) b = Some s -> enc (VOcts b) opn ine t = Ok s.
Proof.
  intros t g opn ine b s P T. destruct t as [k m| | |]; try discriminate P. destruct k; try discriminate P. cbn in P.
  apply these_eq in P. cbn [enc enc_prim rbind]. rewrite finish_prim, P.
  destruct g as [c k n]. apply one_header. rewrite orb_false_r. exact T.
Qed.

Lemma category_octets : forall t, category_ok t = true -> forall ine a b o i v s,
  arcs_ok a = true -> object_identifier a = Some o -> tlv Context 0 false o = Some i -> tlv Context 1 false b = Some v ->
  tlv Universal 16 true (i ++ v) = Some s -> enc (VSeq [Some (VOid a); Some (VOcts b)]) false ine t = Ok s.
Proof.
  intros t K ine a b o i v s A O I V S. destruct t as [|isset m fs| |]; try discriminate K.
  destruct isset; try discriminate K. destruct fs as [|[n1 p1 t1 d1 o1] [|[n2 p2 t2 d2 o2] [|]]]; try discriminate K;
    cbn in K; destruct p1, d1, o1; try discriminate K; destruct p2, d2; try discriminate K.
  apply andb_true_iff in K. destruct K as [K K2]. apply andb_true_iff in K. destruct K as [K K1].
  unfold bare in K. apply andb_true_iff in K. destruct K as [G N]. apply these_eq in G. apply negb_true_iff in N.
  assert (E1 : enc (VOid a) false false t1 = Ok i) by (apply (oid_at t1 _ false a o i K1 A O); exact I).
  assert (E2 : enc (VOcts b) (is_some o2) false t2 = Ok v) by (apply (any_at t2 _ (is_some o2) false b v K2); exact V).
  remember (VOid a) as va eqn:Ha. remember (VOcts b) as vb eqn:Hb. clear Ha Hb.
  cbn [enc]. rewrite N. cbn [andb is_some is_opt]. rewrite E1, E2. cbn [rbind map snd List.concat]. rewrite app_nil_r, G, finish_con.
  - apply one_header. exact S.
  - intros _ Q. apply (tlv_nonempty _ _ _ _ _ I). destruct i; [reflexivity|discriminate Q].
Qed.
(** The octets [s] of a category with identifier [a] and value [b]. *)
Definition category_is (a b s : list N) : Prop :=
  arcs_ok a = true /\ exists o i v, object_identifier a = Some o /\ tlv Context 0 false o = Some i /\ tlv Context 1 false b = Some v /\
    tlv Universal 16 true (i ++ v) = Some s.
Definition category (e : list N * list N) : aval := VSeq [Some (VOid (fst e)); Some (VOcts (snd e))].
(** The octets [y] of a class list: none where it is absent or {unclassified}, the DEFAULT. *)
Definition class_list_is (g : tag) (l : option (list bool)) (y : list N) : Prop :=
  match l with
  | None => y = []
  | Some l => if list_eqb Bool.eqb l [false; true] then y = [] else tlv (tcls g) (tnum g) false (bit_string l) = Some y
  end.
Lemma categories_octets : forall t m c, category_ok t = true -> bare [c] m = true -> tcons c = true -> forall l es y,
  Forall2 (fun e s => category_is (fst e) (snd e) s) l es -> l <> [] -> tlv (tcls c) (tnum c) true (List.concat (sorted octets_before es)) = Some y ->
  enc (VList (map category l)) false true (TOf true m (Some t)) = Ok y.
Proof.
  intros t m c K B C l es y F NE Y. unfold bare in B. apply andb_true_iff in B. destruct B as [G N]. apply these_eq in G. apply negb_true_iff in N.
  cbn [enc]. rewrite N. cbn [andb].
  match goal with |- context [rbind (?g (map category l)) _] => assert (E : g (map category l) = Ok es) end.
  { clear NE Y. induction F as [|e s l es H F IH]; [reflexivity|]. cbn [map].
    destruct H as (A & o & i & v & O & I & V & S). pose proof (category_octets t K true _ _ o i v s A O I V S) as E1.
    change (VSeq [Some (VOid (fst e)); Some (VOcts (snd e))]) with (category e) in E1. rewrite E1. cbn [rbind]. rewrite IH. reflexivity. }
  rewrite E. cbn [rbind]. rewrite <- sorted_same, G, finish_con.
  - destruct c as [cc ck cn]. cbn in C. subst ck. apply one_header. exact Y.
  - intros _ Q. inversion F as [|e s l' es' H F' HL HE]; [subst l; exact (NE eq_refl)|]. subst es.
    destruct H as (A & o & i & v & O & I & V & S). apply (tlv_nonempty _ _ _ _ _ S).
    assert (J : In s (sorted octets_before (s :: es'))) by (apply sorted_in; left; reflexivity).
    apply in_split in J. destruct J as (u & w & J). rewrite J, concat_app in Q. cbn [List.concat] in Q.
    destruct s; [reflexivity|]. destruct (List.concat u); discriminate Q.
Qed.
Lemma bits_at : forall t g l s, primitive_at KBits g t = true -> tcons g = false ->
  tlv (tcls g) (tnum g) false (bit_string l) = Some s -> enc (VBits l) false false t = Ok s.
Proof.
  intros t g l s P C T. destruct t as [k m| | |]; try discriminate P. destruct k; try discriminate P. cbn in P.
  apply these_eq in P. cbn [enc enc_prim rbind]. rewrite finish_prim, P, bits_spec.
  destruct g as [c k n]. cbn in C. subst k. apply one_header. exact T.
Qed.
Lemma clearance_octets : forall t p g c, clearance_ok p g c t = true -> tcons g = false -> tcons c = true -> forall q r x k w l es y z,
  arcs_ok q = true -> object_identifier q = Some r -> tlv (tcls p) (tnum p) (tcons p) r = Some x ->
  class_list_is g k w ->
  Forall2 (fun e s => category_is (fst e) (snd e) s) l es -> l <> [] -> tlv (tcls c) (tnum c) true (List.concat (sorted octets_before es)) = Some y ->
  tlv Universal 16 true (x ++ w ++ y) = Some z ->
  encode t (VSeq [Some (VOid q); option_map VBits k; Some (VList (map category l))]) = Ok z.
Proof.
  intros t p g c K CG C q r x k w l es y z Q R X CL F NE Y Z. destruct t as [|isset m fs| |]; try discriminate K.
  destruct isset; try discriminate K.
  destruct fs as [|[n1 p1 t1 d1 o1] [|[n2 p2 t2 d2 o2] [|[n3 p3 t3 d3 o3] rest]]]; try discriminate K;
    cbn [clearance_ok] in K; destruct p1, d1, o1; try discriminate K; destruct p2; try discriminate K;
    destruct d2 as [[]|]; try discriminate K; destruct b as [|[] [|[] [|]]]; try discriminate K; destruct o2; try discriminate K; destruct p3; try discriminate K.
  destruct t3 as [| |isset m' t'|]; try discriminate K; destruct isset; try discriminate K; destruct t' as [t'|]; try discriminate K;
    destruct d3, o3, rest; try discriminate K.
  apply andb_true_iff in K. destruct K as [K K4]. apply andb_true_iff in K. destruct K as [K K3]. apply andb_true_iff in K. destruct K as [K K2].
  apply andb_true_iff in K. destruct K as [K K1].
  unfold bare in K. apply andb_true_iff in K. destruct K as [G N]. apply these_eq in G. apply negb_true_iff in N.
  assert (E1 : enc (VOid q) false false t1 = Ok x) by (apply (oid_at t1 p false q r x K1 Q R); exact X).
  pose proof (categories_octets t' m' c K4 K3 C l es y F NE Y) as E3.
  unfold encode. remember (VList (map category l)) as vl eqn:Hl. remember (VOid q) as vq eqn:Hq. clear Hl Hq.
  assert (NZ : x ++ w ++ y <> []).
  { intro Q0. apply (tlv_nonempty _ _ _ _ _ X). destruct x; [reflexivity|discriminate Q0]. }
  destruct k as [k|]; cbn [option_map class_list_is] in *.
  - assert (E2 : list_eqb Bool.eqb k [false; true] = false -> enc (VBits k) false false t2 = Ok w).
    { intro D. rewrite D in CL. exact (bits_at t2 g k w K2 CG CL). }
    assert (D : aval_eqb (VBits k) (VBits [false; true]) = list_eqb Bool.eqb k [false; true]) by reflexivity.
    remember (VBits k) as vk eqn:Hk. clear Hk.
    cbn [enc]. rewrite N. cbn [andb is_some is_opt]. rewrite D. destruct (list_eqb Bool.eqb k [false; true]).
    + subst w. rewrite E1, E3. cbn [rbind map snd List.concat]. rewrite app_nil_r, G, finish_con; [apply one_header; exact Z|intros _; exact NZ].
    + rewrite E1, E3, (E2 eq_refl). cbn [rbind map snd List.concat]. rewrite app_nil_r, G, finish_con; [apply one_header; exact Z|intros _; exact NZ].
  - subst w. cbn [enc]. rewrite N. cbn [andb is_some is_opt]. rewrite E1, E3.
    cbn [rbind map snd List.concat]. rewrite app_nil_r, G, finish_con; [apply one_header; exact Z|intros _; exact NZ].
Qed.

(** The modules. *)
Definition category_modules : list string := ["rfc2634"; "rfc3281"; "rfc5035"; "rfc5755"].
Definition clearances : list ((string * string) * (tag * tag * tag)) := [
  (("rfc3281", "Clearance"), (mkTag Context false 0, mkTag Context false 1, mkTag Context true 2));
  (("rfc5755", "Clearance_rfc3281"), (mkTag Context false 0, mkTag Context false 1, mkTag Context true 2));
  (("rfc5755", "Clearance"), (mkTag Universal false 6, mkTag Universal false 3, mkTag Universal true 17))].
Lemma shapes_checked :
  match session category_modules with
  | OK W => forallb (fun m => match schema W m "SecurityCategory" with Some (t, _) => category_ok t | None => false end) category_modules
            && forallb (fun e => match schema W (fst (fst e)) (snd (fst e)) with
                                 | Some (t, _) => clearance_ok (fst (fst (snd e))) (snd (fst (snd e))) (snd (snd e)) t
                                 | None => false
                                 end) clearances
  | _ => false
  end = true.
Proof. vm_cast_no_check (eq_refl true). Qed.
Lemma shape_of : forall m x f,
  match session category_modules with
  | OK W => match schema W m x with Some (t, _) => f t | None => false end
  | _ => false
  end = true -> forall h W, session h = OK W -> loaded W m <> None -> exists t o, schema W m x = Some (t, o) /\ f t = true.
Proof. intros m x f H. exact (check_everywhere (Cdc := false) category_modules m x f H). Qed.

(** ** C69 *)

(** A category with identifier [a] and value [b] is 30 L (80 L a) (81 L b): the octets [b] under
    a primitive tag, not within the constructed tag A1. *)
Theorem C69_category : forall h W m, session h = OK W -> loaded W m <> None -> In m ["rfc2634"; "rfc3281"; "rfc5035"; "rfc5755"] ->
  exists t d, schema W m "SecurityCategory" = Some (t, d) /\
  forall a b o i v s, arcs_ok a = true -> object_identifier a = Some o ->
    tlv Context 0 false o = Some i -> tlv Context 1 false b = Some v -> tlv Universal 16 true (i ++ v) = Some s ->
    encode t (VSeq [Some (VOid a); Some (VOcts b)]) = Ok s.
Proof.
  intros h W m E L I.
  assert (K : match session category_modules with
              | OK W => match schema W m "SecurityCategory" with Some (t, _) => category_ok t | None => false end
              | _ => false end = true).
  { pose proof shapes_checked as S. destruct (session category_modules) as [W0|e|e]; [|discriminate S|discriminate S].
    apply andb_true_iff in S. destruct S as [S _]. rewrite forallb_forall in S. exact (S m I). }
  destruct (shape_of m "SecurityCategory" category_ok K h W E L) as (t & d & HS & T). exists t, d. split; [exact HS|].
  intros a b o i v s. exact (category_octets t T false a b o i v s).
Qed.
Print Assumptions C69_category.

(** A clearance for policy [q] with class list [k] and categories [l]: the policy under the tag
    [p], the class list, unless it is the DEFAULT, under [g], and the categories, sorted as
    11.6 of X.690 says, within the constructed tag [c]. *)
Theorem C69_clearance : forall h W m x p g c, session h = OK W -> loaded W m <> None ->
  In ((m, x), (p, g, c)) [
    (("rfc3281", "Clearance"), (mkTag Context false 0, mkTag Context false 1, mkTag Context true 2));
    (("rfc5755", "Clearance_rfc3281"), (mkTag Context false 0, mkTag Context false 1, mkTag Context true 2));
    (("rfc5755", "Clearance"), (mkTag Universal false 6, mkTag Universal false 3, mkTag Universal true 17))] ->
  exists t d, schema W m x = Some (t, d) /\
  forall q r u k w l es y z, arcs_ok q = true -> object_identifier q = Some r -> tlv (tcls p) (tnum p) false r = Some u ->
    class_list_is g k w ->
    Forall2 (fun e s => category_is (fst e) (snd e) s) l es -> l <> [] -> tlv (tcls c) (tnum c) true (List.concat (sorted octets_before es)) = Some y ->
    tlv Universal 16 true (u ++ w ++ y) = Some z ->
    encode t (VSeq [Some (VOid q); option_map VBits k;
                    Some (VList (map (fun e => VSeq [Some (VOid (fst e)); Some (VOcts (snd e))]) l))]) = Ok z.
Proof.
  intros h W m x p g c E L I.
  assert (K : match session category_modules with
              | OK W => match schema W m x with Some (t, _) => clearance_ok p g c t | None => false end
              | _ => false end = true).
  { pose proof shapes_checked as S. destruct (session category_modules) as [W0|e|e]; [|discriminate S|discriminate S].
    apply andb_true_iff in S. destruct S as [_ S]. rewrite forallb_forall in S. exact (S _ I). }
  assert (T : tcons p = false /\ tcons g = false /\ tcons c = true).
  { destruct I as [I|[I|[I|[]]]]; injection I; intros; subst; repeat split; reflexivity. }
  destruct T as (P & G & C).
  destruct (shape_of m x (clearance_ok p g c) K h W E L) as (t & d & HS & T). exists t, d. split; [exact HS|].
  intros q r u k w l es y z Q R X. apply (clearance_octets t p g c T G C q r u k w l es y z Q R). rewrite P. exact X.
Qed.
Print Assumptions C69_clearance.

(** Policy 1.2.3, class list {secret}, and two categories out of order. *)
Example C69_ex : object_identifier [1; 2; 4]%N = Some [42; 4]%N /\ tlv Context 0 false [42; 4]%N = Some [128; 2; 42; 4]%N /\
  tlv Context 1 false [5; 0]%N = Some [129; 2; 5; 0]%N /\
  class_list_is (mkTag Context false 1) (Some [false; false; false; false; true]) [129; 2; 3; 8]%N /\
  match session ["rfc3281"] with
  | OK W => match schema W "rfc3281" "Clearance" with
            | Some (t, _) => match encode t (VSeq [Some (VOid [1; 2; 3]%N); Some (VBits [false; false; false; false; true]);
                                                   Some (VList [VSeq [Some (VOid [1; 2; 5]%N); Some (VOcts [5; 0]%N)]; VSeq [Some (VOid [1; 2; 4]%N); Some (VOcts [5; 0]%N)]])]) with
                             | Ok l => list_eqb N.eqb l [48; 30; 128; 2; 42; 3; 129; 2; 3; 8; 162; 20; 48; 8; 128; 2; 42; 4; 129; 2; 5; 0; 48; 8; 128; 2; 42; 5; 129; 2; 5; 0]%N
                             | _ => false
                             end
            | None => false
            end
  | _ => false
  end = true.
Proof. split; [|split; [|split; [|split]]]; vm_compute; reflexivity. Qed.
