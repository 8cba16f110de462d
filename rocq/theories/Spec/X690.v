(** The Distinguished Encoding Rules, from X.690 (2002 and later editions), for the types of
    Spec/X680.v.  Written from the Recommendation, not from pyasn1. *)
From Coq Require Import List String ZArith NArith Bool.
From Verif Require Import Asn1.Types Py.Eval Spec.X680.   (* Py.Eval: aval_eqb, equality of values (EqbFacts.eqb_sound, eqb_refl) *)
Import ListNotations.
Open Scope string_scope.
Open Scope list_scope.
Open Scope N_scope.

(** ** Numbers *)

(** The last [k] digits of [n] in base [b], most significant first. *)
Fixpoint be (b : N) (k : nat) (n : N) : list N :=
  match k with
  | O => []
  | S k' => be b k' (n / b) ++ [n mod b]
  end.
(** 8.1.2.4.2, 8.19.2: base 128, the fewest octets, bit 8 set in all but the last. *)
Definition septets (n : N) : nat := Nat.max 1 (N.to_nat ((N.size n + 6) / 7)).
Fixpoint continued (l : list N) : list N :=
  match l with
  | [] => []
  | [x] => [x]
  | x :: l' => (128 + x) :: continued l'
  end.
Definition base128 (n : N) : list N := continued (be 128 (septets n) n).

(** ** Identifier and length octets *)

(** 8.1.2: class, primitive or constructed, number. *)
Definition class_bits (c : tclass) : N := match c with Universal => 0 | Application => 64 | Context => 128 | Private => 192 end.
Definition identifier (c : tclass) (n : N) (constructed : bool) : list N :=
  let first := class_bits c + (if constructed then 32 else 0) in
  if n <=? 30 then [first + n] else (first + 31) :: base128 n.
(** 8.1.3 and 10.1: definite form, fewest octets.  At most 126 length octets (8.1.3.5 c). *)
Definition length_octets (n : N) : option (list N) :=
  if n <=? 127 then Some [n]
  else let k := (N.size n + 7) / 8 in
       if k <=? 126 then Some ((128 + k) :: be 256 (N.to_nat k) n) else None.
Definition tlv (c : tclass) (n : N) (constructed : bool) (contents : list N) : option (list N) :=
  match length_octets (N.of_nat (List.length contents)) with
  | Some l => Some (identifier c n constructed ++ l ++ contents)
  | None => None
  end.

(** ** Contents octets *)

(** 8.3: two's complement in the fewest octets. *)
Definition integer_octets (z : Z) : nat :=
  S (N.to_nat (N.size (Z.to_N (if (z <? 0)%Z then -z - 1 else z)) / 8)).
Definition integer (z : Z) : list N :=
  let k := integer_octets z in be 256 k (Z.to_N (z mod 256 ^ Z.of_nat k)).
(** 8.6 and 11.2: number of unused bits, then the bits, first bit in bit 8, unused bits 0.
    11.2.2: with a named bit list, trailing 0 bits are removed. *)
Fixpoint strip_zeros (l : list bool) : list bool :=
  match l with
  | [] => []
  | b :: l' => match strip_zeros l', b with [], false => [] | r, _ => b :: r end
  end.
Fixpoint octet_of_bits (l : list bool) (w : N) : N :=
  match l with [] => 0 | b :: l' => (if b then w else 0) + octet_of_bits l' (w / 2) end.
Fixpoint octets_of_bits (k : nat) (l : list bool) : list N :=
  match k with
  | O => []
  | S k' => octet_of_bits (firstn 8 l) 128 :: octets_of_bits k' (skipn 8 l)
  end.
Definition bit_string (l : list bool) : list N :=
  let k := Nat.div (List.length l + 7) 8 in
  N.of_nat (8 * k - List.length l) :: octets_of_bits k l.
(** 8.19.4: the first two arcs share a subidentifier. *)
Definition object_identifier (a : list N) : option (list N) :=
  match a with
  | x :: y :: r => Some (flat_map base128 (40 * x + y :: r))
  | _ => None
  end.
(** 8.23 (and ISO/IEC 10646 for UTF-8): one octet per character, except UTF8String,
    BMPString (2) and UniversalString (4). *)
Definition utf8 (c : N) : list N :=
  if c <=? 127 then [c]
  else if c <=? 2047 then [192 + c / 64; 128 + c mod 64]
  else if c <=? 65535 then [224 + c / 4096; 128 + c / 64 mod 64; 128 + c mod 64]
  else [240 + c / 262144; 128 + c / 4096 mod 64; 128 + c / 64 mod 64; 128 + c mod 64].
Definition characters (k : strkind) (t : list N) : list N :=
  flat_map (match k with SUTF8 => utf8 | SBMP => be 256 2 | SUniversal => be 256 4 | _ => fun c => [c] end) t.

Definition contents (p : sprim) (v : aval) : option (list N) :=
  match p, v with
  | PBool, VBool b => Some [if b then 255 else 0]
  | PInt _, VInt z | PEnum _, VInt z => Some (integer z)
  | PBits [], VBits l => Some (bit_string l)
  | PBits _, VBits l => Some (bit_string (strip_zeros l))
  | POcts, VOcts b => Some b
  | PNull, VNull => Some []
  | POid, VOid a => object_identifier a
  | PStr k, VText t => Some (characters k t)
  | _, _ => None
  end.

(** Universal tag numbers (X.680 table 1). *)
Definition universal (p : sprim) : N :=
  match p with
  | PBool => 1 | PInt _ => 2 | PBits _ => 3 | POcts => 4 | PNull => 5 | POid => 6 | PEnum _ => 10
  | PStr SObjDesc => 7 | PStr SUTF8 => 12 | PStr SNumeric => 18 | PStr SPrintable => 19 | PStr STeletex => 20
  | PStr SVideotex => 21 | PStr SIA5 => 22 | PStr SUTCTime => 23 | PStr SGenTime => 24 | PStr SGraphic => 25
  | PStr SVisible => 26 | PStr SGeneral => 27 | PStr SUniversal => 28 | PStr SBMP => 30
  end.

(** ** Order *)

Section sorting.
  Context {A : Type} (before : A -> A -> bool).
  Fixpoint place (x : A) (l : list A) : list A :=
    match l with [] => [x] | y :: l' => if before x y then x :: l else y :: place x l' end.
  Fixpoint sorted (l : list A) : list A := match l with [] => [] | x :: l' => place x (sorted l') end.
End sorting.
(** 11.6: ascending, compared as octet strings, the shorter padded with 0 octets. *)
Fixpoint lex_le (a b : list N) : bool :=
  match a, b with
  | x :: a', y :: b' => if x =? y then lex_le a' b' else x <? y
  | _, _ => true
  end.
Definition pad (k : nat) (a : list N) : list N := a ++ repeat 0 (k - List.length a).
Definition octets_before (a b : list N) : bool :=
  let k := Nat.max (List.length a) (List.length b) in lex_le (pad k a) (pad k b).
(** 10.3 (X.680 8.6): by class, then by number. *)
Definition tag_before (a b : tclass * N) : bool :=
  if class_bits (fst a) =? class_bits (fst b) then snd a <=? snd b else class_bits (fst a) <? class_bits (fst b).

(** ** Encoding *)

Definition pick (over : option (tclass * N)) (own : tclass * N) : tclass * N :=
  match over with Some t => t | None => own end.
Definition emit (t : tclass * N) (constructed : bool) (c : option (list N)) : option (list N) :=
  match c with Some c => tlv (fst t) (snd t) constructed c | None => None end.
Fixpoint all_some {A} (l : list (option A)) : option (list A) :=
  match l with
  | [] => Some []
  | Some x :: l' => match all_some l' with Some r => Some (x :: r) | None => None end
  | None :: _ => None
  end.

(** The tag of the encoding of [v]: for an untagged CHOICE the tag of the alternative. *)
Fixpoint outer_tag (s : sty) (v : aval) {struct s} : tclass * N :=
  match s with
  | APrim p => (Universal, universal p)
  | AAny => (Universal, 0)                                (* not known from the type *)
  | ASeq _ | ASeqOf _ => (Universal, 16)
  | ASet _ | ASetOf _ => (Universal, 17)
  | AChoice alts =>
      match v with
      | VAlt i x =>
          (fix go (fs : list sfield) (i : nat) {struct fs} : tclass * N :=
             match fs, i with
             | SF _ _ s' :: _, O => outer_tag s' x
             | _ :: fs', S i' => go fs' i'
             | [], _ => (Universal, 0)
             end) alts i
      | _ => (Universal, 0)
      end
  | ATag c n _ _ => (c, n)
  | ACon _ s' => outer_tag s' v
  end.

(** [over]: the tag put in place of the type's own by implicit tagging (8.14.3).  Untagged
    CHOICE and ANY have no tag to replace: tagging them is explicit (X.680 30.6 c).  Explicit tagging (8.14.2)
    is constructed.  [None]: not a value of the type, or too long to encode. *)
Fixpoint der (s : sty) (over : option (tclass * N)) (v : aval) {struct s} : option (list N) :=
  match s with
  | APrim p => emit (pick over (Universal, universal p)) false (contents p v)
  | AAny =>
      match v with
      | VOcts b => match over with Some t => emit t true (Some b) | None => Some b end
      | _ => None
      end
  | ASeq fs | ASet fs =>
      let set := match s with ASet _ => true | _ => false end in
      match v with
      | VSeq vs =>
          emit (pick over (Universal, if set then 17 else 16)) true
            match (fix go (fs : list sfield) (vs : list (option aval)) {struct fs} : option (list (tclass * N * list N)) :=
                     match fs, vs with
                     | [], [] => Some []
                     | SF _ p s' :: fs', o :: vs' =>
                         match o with
                         | None => match p with Mandatory => None | _ => go fs' vs' end
                         | Some x =>
                             if match p with Default d => aval_eqb x d | _ => false end then go fs' vs'   (* 11.5 *)
                             else match der s' None x, go fs' vs' with
                                  | Some c, Some r => Some ((outer_tag s' x, c) :: r)
                                  | _, _ => None
                                  end
                         end
                     | _, _ => None
                     end) fs vs with
            | Some l => Some (List.concat (map snd (if set then sorted (fun a b => tag_before (fst a) (fst b)) l else l)))
            | None => None
            end
      | _ => None
      end
  | ASeqOf s' =>
      match v with
      | VList vs => emit (pick over (Universal, 16)) true
                      match all_some (map (der s' None) vs) with Some l => Some (List.concat l) | None => None end
      | _ => None
      end
  | ASetOf s' =>
      match v with
      | VList vs => emit (pick over (Universal, 17)) true
                      match all_some (map (der s' None) vs) with
                      | Some l => Some (List.concat (sorted octets_before l)) | None => None end
      | _ => None
      end
  | AChoice alts =>
      match v with
      | VAlt i x =>
          let c := (fix go (fs : list sfield) (i : nat) {struct fs} : option (list N) :=
             match fs, i with
             | SF _ _ s' :: _, O => der s' None x
             | _ :: fs', S i' => go fs' i'
             | [], _ => None
             end) alts i in
          match over with Some t => emit t true c | None => c end
      | _ => None
      end
  | ATag c n true s' => emit (pick over (c, n)) true (der s' None v)
  | ATag c n false s' => der s' (Some (pick over (c, n))) v
  | ACon _ s' => der s' over v
  end.

(** The DER encoding of [v] as a value of [s]. *)
Definition DER (s : sty) (v : aval) : option (list N) := der s None v.
