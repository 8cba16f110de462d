(** Octets that may be taken for an encoding of a value: clause 8 of X.690 with definite
    lengths, and the liberties that a decoder may be allowed on top of it,
    each marked "beyond".  Written from the Recommendation, for Props/SpecProps.v (C50). *)
From Coq Require Import List String ZArith NArith Bool.
From Verif Require Import Asn1.Types Spec.X680 Spec.X690.
From Verif Require Export Asn1.Codec.
Import ListNotations.
Open Scope string_scope.
Open Scope list_scope.
Open Scope N_scope.

Section codec.
Context {Cdc : codec}.

(** ** Identifier and length octets *)

(** The number with these digits in base [b], most significant first. *)
Definition value_of (b : N) (l : list N) : N := fold_left (fun a d => a * b + d) l 0.

(** 8.1.2; beyond: the form with several octets is not kept for numbers above 30, and leading
    zero digits are allowed. *)
Inductive identifies (c : tclass) (k : bool) (n : N) : list N -> Prop :=
| one_octet : n <= 30 -> identifies c k n [class_bits c + (if k then 32 else 0) + n]
| more_octets : forall ds, ds <> [] -> Forall (fun d => d < 128) ds -> value_of 128 ds = n ->
    identifies c k n ((class_bits c + (if k then 32 else 0) + 31) :: continued ds).
(** 8.1.3, definite form; beyond: 127 length octets. *)
Inductive measures (n : N) : list N -> Prop :=
| short_form : n <= 127 -> measures n [n]
| long_form : forall ds, ds <> [] -> N.of_nat (List.length ds) <= 127 -> value_of 256 ds = n ->
    measures n ((128 + N.of_nat (List.length ds)) :: ds).
(** An item: identifier, length, contents. *)
Definition an_item (t : tclass * N) (k : bool) (c b : list N) : Prop :=
  exists i l, identifies (fst t) k (snd t) i /\ measures (N.of_nat (List.length c)) l /\ b = i ++ l ++ c.
Definition tagged_somehow (b : list N) : Prop := exists t k c, an_item t k c b.
(** Any item but end-of-contents; with another tag than [u]. *)
Definition some_item (b : list N) : Prop := exists t k c, an_item t k c b /\ t <> (Universal, 0).
Definition other_item (u : tclass * N) (b : list N) : Prop := exists t k c, an_item t k c b /\ t <> (Universal, 0) /\ t <> u.

(** ** Contents octets *)

Definition bits_of (o : N) : list bool := map (N.testbit o) [7; 6; 5; 4; 3; 2; 1; 0].
(** UTF-16, most significant octet first. *)
Definition utf16 (c : N) : list N :=
  if c <=? 65535 then be 256 2 c
  else be 256 2 (55296 + (c - 65536) / 1024) ++ be 256 2 (56320 + (c - 65536) mod 1024).
(** Beyond: the characters of the restricted string types are not restricted but to seven
    or eight bits; a BMPString is read as UTF-16. *)
Definition character_ok (k : strkind) (c : N) : bool :=
  match k with
  | SUTF8 | SUniversal | SBMP => unicode c
  | STeletex | SVideotex | SGraphic | SGeneral | SObjDesc => c <=? 255
  | SNumeric | SPrintable | SIA5 | SVisible | SGenTime | SUTCTime => c <=? 127
  end.
Definition text_octets (k : strkind) (t : list N) : list N :=
  match k with SBMP => flat_map utf16 t | _ => characters k t end.

(** BOOLEAN: 11.1; if [lax], 8.2, and beyond: any number of octets, even none.  INTEGER: two's
    complement; beyond: any number of octets, even none.  BIT STRING: the unused bits are
    whatever they are.  OBJECT IDENTIFIER: 8.19, fewest octets. *)
Definition denotes (p : sprim) (v : aval) (c : list N) : Prop :=
  match p, v with
  | PBool, VBool b => c = [if b then 255 else 0] \/ lax = true /\ b = existsb (fun o => negb (o =? 0)) c
  | (PInt _ | PEnum _), VInt z =>
      let m := (256 ^ Z.of_nat (List.length c))%Z in
      (z mod m = Z.of_N (value_of 256 c) /\ - m <= 2 * z < m)%Z
  | PBits _, VBits l =>
      exists u o unused, c = u :: o /\ u <= 7 /\ N.of_nat (List.length unused) = u /\ flat_map bits_of o = l ++ unused
  | POcts, VOcts b => c = b
  | PNull, VNull => c = []
  | POid, VOid a => object_identifier a = Some c /\ arcs_ok a = true
  | PStr k, VText t => c = text_octets k t /\ forallb (character_ok k) t = true
  | _, _ => False
  end.

(** The constructed form: 8.6.4, 8.7.3, 8.23.  [x]: contents of a segment; beyond: its tag may
    be any that is not universal; a segment in constructed form is not taken apart; the segments
    of a character string have its own tag, not that of OCTET STRING. *)
Definition segment (n : N) (x e : list N) : Prop := exists t k, an_item t k x e /\ (t = (Universal, n) \/ k = true /\ fst t <> Universal).
Definition in_segments (n : N) (xs : list (list N)) (c : list N) : Prop := exists es, Forall2 (segment n) xs es /\ c = List.concat es.
(** BIT STRING and OCTET STRING, only if [lax]; beyond: a BOOLEAN, unless [lax]. *)
Definition denotes_parted (p : sprim) (v : aval) (c : list N) : Prop :=
  match p, v with
  | PBool, VBool b => lax = false /\ c = [if b then 255 else 0]
  | PBits _, VBits l => lax = true /\ c <> [] /\
      exists xs ls, in_segments 3 xs c /\ Forall2 (fun x l => denotes p (VBits l) x) xs ls /\ l = List.concat ls
  | POcts, VOcts b => lax = true /\ exists xs, in_segments 4 xs c /\ b = List.concat xs
  | PStr k, VText t => exists xs, in_segments (universal p) xs c /\ denotes p v (List.concat xs)
  | _, _ => False
  end.

(** ** Components *)

Definition when_absent (p : need) : option aval := match p with Default v => Some v | _ => None end.
(** What a SET holds in its [j]th component after these items (component, value, octets);
    beyond: of several items for one component the last counts. *)
Definition last_of (j : nat) (items : list (nat * aval * list N)) : option aval :=
  fold_left (fun o it => if Nat.eqb (fst (fst it)) j then Some (snd (fst it)) else o) items None.
Definition slots_of (fs : list sfield) (items : list (nat * aval * list N)) (vs : list (option aval)) : Prop :=
  List.length vs = List.length fs /\
  forall j f, nth_error fs j = Some f ->
    nth_error vs j = Some (match last_of j items with Some x => Some x | None => when_absent (sf_need f) end) /\
    (sf_need f = Mandatory -> last_of j items <> None).

(** ** Encodings *)

(** Constraints apart, ANY; CHOICE; a type with primitive contents or ANY. *)
Fixpoint any_under (s : sty) : bool := match s with AAny => true | ACon _ s' => any_under s' | _ => false end.
Fixpoint choice_under (s : sty) : bool := match s with AChoice _ => true | ACon _ s' => choice_under s' | _ => false end.
Fixpoint plain_under (s : sty) : bool :=
  match s with APrim _ | AAny => true | ACon _ s' | ATag _ _ _ s' => plain_under s' | _ => false end.

(** Constraints that a decoder sees to: those of primitive types and ANY, and WITH COMPONENTS. *)
Definition observed (c : scon) (s : sty) : bool := match c with WithC _ => true | _ => plain_under s end.

(** [b] may be taken for an encoding of [v].  [bd]: the constraints just named are observed.
    Beyond:
    - the tag around ANY and that around CHOICE may say primitive or constructed;
    - octets after the item inside an explicit tag are ignored, and so those inside a tagged CHOICE;
    - an item with another tag is taken for a tagged ANY, as it is;
    - a component equal to its DEFAULT may be there (BER allows that);
    - elements of SET OF and components of SET in any order (BER allows that);
    - if [new], an alternative that is not in the type ([VAlt i] with no [i]th alternative)
      may be chosen: rfc2459's DirectoryString has one more alternative. *)
Fixpoint taken_for (bd new : bool) (s : sty) (over : option (tclass * N)) (v : aval) (b : list N) {struct s} : Prop :=
  let fix alt (fs : list sfield) (i : nat) (x : aval) (e : list N) {struct fs} : Prop :=
    match fs, i with
    | SF _ _ s' :: _, O => taken_for bd new s' None x e
    | _ :: fs', S i' => alt fs' i' x e
    | [], _ => new = true /\ tagged_somehow e
    end in
  let fix component (fs : list sfield) (i : nat) (x : aval) (e : list N) {struct fs} : Prop :=
    match fs, i with
    | SF _ _ s' :: _, O => taken_for bd new s' None x e
    | _ :: fs', S i' => component fs' i' x e
    | [], _ => False
    end in
  let fix fields (fs : list sfield) (vs : list (option aval)) (c : list N) {struct fs} : Prop :=
    match fs, vs with
    | [], [] => c = []
    | SF _ p s' :: fs', o :: vs' =>
        (exists x e c', o = Some x /\ c = e ++ c' /\ taken_for bd new s' None x e /\ fields fs' vs' c')
        \/ (p <> Mandatory /\ o = when_absent p /\ fields fs' vs' c)
    | _, _ => False
    end in
  match s with
  | APrim p => exists k c, an_item (pick over (Universal, universal p)) k c b /\ (if k then denotes_parted p v c else denotes p v c)
  | AAny =>
      exists x, v = VOcts x /\
      match over with
      | None => b = x /\ some_item x
      | Some t => (exists k, an_item t k x b) \/ (b = x /\ other_item t x)
      end
  | ASeq fs => exists vs c, v = VSeq vs /\ an_item (pick over (Universal, 16)) true c b /\ fields fs vs c
  | ASet fs => exists vs items, v = VSeq vs /\ an_item (pick over (Universal, 17)) true (List.concat (map snd items)) b /\
      Forall (fun it => component fs (fst (fst it)) (snd (fst it)) (snd it)) items /\ slots_of fs items vs
  | ASeqOf s' => exists vs es, v = VList vs /\ an_item (pick over (Universal, 16)) true (List.concat es) b /\ Forall2 (taken_for bd new s' None) vs es
  | ASetOf s' => exists vs es, v = VList vs /\ an_item (pick over (Universal, 17)) true (List.concat es) b /\ Forall2 (taken_for bd new s' None) vs es
  | AChoice fs => exists i x, v = VAlt i x /\
      match over with
      | None => alt fs i x b
      | Some t => exists k e ignored, an_item t k (e ++ ignored) b /\ alt fs i x e
      end
  | ATag c n explicit s' =>
      if explicit && negb (any_under s') then
        exists k e ignored, an_item (pick over (c, n)) k (e ++ ignored) b /\ (k = true \/ choice_under s' = true) /\
          taken_for bd new s' None v e
      else taken_for bd new s' (Some (pick over (c, n))) v b
  | ACon c s' => (bd = true -> observed c s' = true -> sok c v = true) /\ taken_for bd new s' over v b
  end.

End codec.
