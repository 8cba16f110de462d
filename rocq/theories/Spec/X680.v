(** ASN.1 as the RFCs use it (X.680, and ANY of X.208): types, tagging, constraints, and
    which values a type has.  Nothing here comes from pyasn1 or from /repo: this is the
    language in which Spec/Rfc*.v transcribe the ASN.1 modules of the RFCs.  Only the
    datatypes of tag classes, string types and abstract values are shared with Asn1/Types.v. *)
From Coq Require Import List String ZArith NArith Bool.
From Verif Require Import Asn1.Types.
Import ListNotations.
Open Scope string_scope.
Open Scope list_scope.

(** Numbers of a named number list, an enumeration or a named bit list. *)
Definition named := list (string * Z).

Inductive sprim :=
| PBool | PInt (l : named) | PEnum (l : named) | PBits (l : named) | POcts | PNull | POid | PStr (k : strkind).

(** SIZE (lo..hi), SIZE (a | b | ...), (lo..hi), (a | b | ...), FROM (...) and
    WITH COMPONENTS {..., x PRESENT, y ABSENT} | ..., which gives the components by their
    positions; [None] is MIN or MAX. *)
Inductive scon :=
| SizeC (lo : N) (hi : option N)
| SizesC (l : list N)
| RangeC (lo hi : option Z)
| ValuesC (l : list cval)
| FromC (l : list N)
| WithC (l : list (list (nat * bool))).

Inductive need := Mandatory | Optional | Default (v : aval).

Inductive sty :=
| APrim (p : sprim)
| AAny
| ASeq (fs : list sfield)
| ASet (fs : list sfield)
| ASeqOf (s : sty)
| ASetOf (s : sty)
| AChoice (alts : list sfield)
| ATag (c : tclass) (n : N) (explicit : bool) (s : sty)
| ACon (c : scon) (s : sty)
with sfield := SF (name : string) (p : need) (s : sty).

Definition sf_name (f : sfield) : string := let (n, _, _) := f in n.
Definition sf_need (f : sfield) : need := let (_, p, _) := f in p.
Definition sf_type (f : sfield) : sty := let (_, _, s) := f in s.

(** Induction over types and their components. *)
Section sty_ind2.
  Variable P : sty -> Prop.
  Hypothesis Hprim : forall p, P (APrim p).
  Hypothesis Hany : P AAny.
  Hypothesis Hseq : forall fs, Forall (fun f => P (sf_type f)) fs -> P (ASeq fs).
  Hypothesis Hset : forall fs, Forall (fun f => P (sf_type f)) fs -> P (ASet fs).
  Hypothesis Hseqof : forall s, P s -> P (ASeqOf s).
  Hypothesis Hsetof : forall s, P s -> P (ASetOf s).
  Hypothesis Hchoice : forall fs, Forall (fun f => P (sf_type f)) fs -> P (AChoice fs).
  Hypothesis Htag : forall c n e s, P s -> P (ATag c n e s).
  Hypothesis Hcon : forall c s, P s -> P (ACon c s).
  Fixpoint sty_ind2 (s : sty) : P s :=
    let fix go (fs : list sfield) : Forall (fun f => P (sf_type f)) fs :=
      match fs with
      | [] => Forall_nil _
      | f :: fs' =>
          Forall_cons f (match f as f0 return P (sf_type f0) with SF _ _ s' => sty_ind2 s' end) (go fs')
      end in
    match s with
    | APrim p => Hprim p
    | AAny => Hany
    | ASeq fs => Hseq fs (go fs)
    | ASet fs => Hset fs (go fs)
    | ASeqOf s' => Hseqof s' (sty_ind2 s')
    | ASetOf s' => Hsetof s' (sty_ind2 s')
    | AChoice fs => Hchoice fs (go fs)
    | ATag c n e s' => Htag c n e s' (sty_ind2 s')
    | ACon c s' => Hcon c s' (sty_ind2 s')
    end.
End sty_ind2.

(** ** Notation for transcriptions *)

Notation BOOLEAN := (APrim PBool).
Notation INTEGER := (APrim (PInt [])).
Notation "'INTEGER_OF' l" := (APrim (PInt l)) (at level 9, only parsing).
Notation "'ENUMERATED' l" := (APrim (PEnum l)) (at level 9, only parsing).
Notation "'BIT_STRING'" := (APrim (PBits [])).
Notation "'BIT_STRING_OF' l" := (APrim (PBits l)) (at level 9, only parsing).
Notation "'OCTET_STRING'" := (APrim POcts).
Notation NULL := (APrim PNull).
Notation "'OBJECT_IDENTIFIER'" := (APrim POid).
Notation UTF8String := (APrim (PStr SUTF8)).
Notation NumericString := (APrim (PStr SNumeric)).
Notation PrintableString := (APrim (PStr SPrintable)).
Notation TeletexString := (APrim (PStr STeletex)).
Notation IA5String := (APrim (PStr SIA5)).
Notation VisibleString := (APrim (PStr SVisible)).
Notation GeneralString := (APrim (PStr SGeneral)).
Notation UniversalString := (APrim (PStr SUniversal)).
Notation BMPString := (APrim (PStr SBMP)).
Notation GeneralizedTime := (APrim (PStr SGenTime)).
Notation UTCTime := (APrim (PStr SUTCTime)).
Notation ANY := AAny.
Notation SEQUENCE := ASeq.
Notation SET := ASet.
Notation "'SEQUENCE_OF'" := ASeqOf.
Notation "'SET_OF'" := ASetOf.
Notation CHOICE := AChoice.
(** SEQUENCE SIZE (lo..hi) OF, SIZE (lo..hi), (lo..hi) *)
Definition size (lo : N) (hi : N) : sty -> sty := ACon (SizeC lo (Some hi)).
Definition size_min (lo : N) : sty -> sty := ACon (SizeC lo None).
Definition range (lo hi : Z) : sty -> sty := ACon (RangeC (Some lo) (Some hi)).
Definition range_min (lo : Z) : sty -> sty := ACon (RangeC (Some lo) None).
Definition values (l : list Z) : sty -> sty := ACon (ValuesC (map CVInt l)).
Definition oids (l : list (list N)) : sty -> sty := ACon (ValuesC (map CVOid l)).
Definition chars (s : string) : list N := map Ascii.N_of_ascii (list_ascii_of_string s).
Definition words (l : list string) : sty -> sty := ACon (ValuesC (map (fun s => CVStr (chars s)) l)).
Definition from (s : string) : sty -> sty := ACon (FromC (chars s)).
Definition sizes (l : list N) : sty -> sty := ACon (SizesC l).
Definition with_components (l : list (list (nat * bool))) : sty -> sty := ACon (WithC l).
(** [n] EXPLICIT T, [n] IMPLICIT T, [APPLICATION n] IMPLICIT T *)
Definition explicit (n : N) : sty -> sty := ATag Context n true.
Definition implicit (n : N) : sty -> sty := ATag Context n false.
Definition application (n : N) : sty -> sty := ATag Application n false.
Definition req (n : string) (s : sty) : sfield := SF n Mandatory s.
Definition opt (n : string) (s : sty) : sfield := SF n Optional s.
Definition dft (n : string) (s : sty) (v : aval) : sfield := SF n (Default v) s.

(** ** The values of a type *)

(** What SIZE counts: bits, octets, characters, elements. *)
Definition count_of (v : aval) : option N :=
  match v with
  | VBits b => Some (N.of_nat (List.length b))
  | VOcts b => Some (N.of_nat (List.length b))
  | VText t => Some (N.of_nat (List.length t))
  | VList l => Some (N.of_nat (List.length l))
  | VOid l => Some (N.of_nat (List.length l)) (* no RFC bounds these *)
  | _ => None
  end.
Definition number_of (v : aval) : option Z :=
  match v with
  | VInt z => Some z
  | VBool b => Some (if b then 1 else 0)%Z (* no RFC bounds these *)
  | _ => None
  end.
Fixpoint same_numbers (a b : list N) : bool :=
  match a, b with [], [] => true | x :: a', y :: b' => N.eqb x y && same_numbers a' b' | _, _ => false end.
Definition is_value (v : aval) (c : cval) : bool :=
  match v, c with
  | VInt z, CVInt y => Z.eqb z y
  | VOcts t, CVStr u | VText t, CVStr u => same_numbers t u
  | VOid a, CVOid b => same_numbers a b
  | VBool b, CVInt y => Z.eqb (if b then 1 else 0) y
  | VNull, CVStr [] => true
  | _, _ => false
  end.
Definition present_at (vs : list (option aval)) (p : nat * bool) : bool :=
  Bool.eqb match nth_error vs (fst p) with Some (Some _) => true | _ => false end (snd p).
Definition sok (c : scon) (v : aval) : bool :=
  match c, v with
  | SizeC lo hi, _ =>
      match count_of v with
      | Some n => N.leb lo n && match hi with Some h => N.leb n h | None => true end
      | None => false
      end
  | SizesC l, _ => match count_of v with Some n => existsb (N.eqb n) l | None => false end
  | RangeC lo hi, _ =>
      match number_of v with
      | Some z => match lo with Some l => Z.leb l z | None => true end && match hi with Some h => Z.leb z h | None => true end
      | None => false
      end
  | ValuesC l, _ => existsb (is_value v) l
  | FromC l, (VOcts t | VText t) => forallb (fun c => existsb (N.eqb c) l) t
  | WithC l, VSeq vs => existsb (forallb (present_at vs)) l
  | _, _ => false
  end.

Definition between (a b c : N) : bool := N.leb a c && N.leb c b.
Definition letter_digit (c : N) : bool := between 65 90 c || between 97 122 c || between 48 57 c.
(** X.680 table 10: letters, digits, space and ' ( ) + , - . / : = ? *)
Definition printable (c : N) : bool :=
  letter_digit c || existsb (N.eqb c) [32; 39; 40; 41; 43; 44; 45; 46; 47; 58; 61; 63]%N.
Definition unicode (c : N) : bool := N.leb c 55295 || between 57344 1114111 c.
Definition digit (c : N) : bool := between 48 57 c.

(** X.680 clause 41 (character sets), 46 and 47 (times, in the form DER requires: X.690
    11.7 and 11.8).  For the registered character sets of T61String, GeneralString and
    the like only characters whose octets are beyond dispute are considered. *)
Fixpoint split_at_dot (t : list N) : list N * option (list N) :=
  match t with
  | [] => ([], None)
  | c :: t' => if N.eqb c 46 then ([], Some t')
               else let (a, f) := split_at_dot t' in (c :: a, f)
  end.
Definition utc_time (t : list N) : bool :=
  Nat.eqb (List.length t) 13 && forallb digit (firstn 12 t) && N.eqb (last t 0%N) 90.
Definition generalized_time (t : list N) : bool :=
  match split_at_dot t with
  | (a, None) => Nat.eqb (List.length a) 15 && forallb digit (firstn 14 a) && N.eqb (last a 0%N) 90
  | (a, Some f) =>
      Nat.eqb (List.length a) 14 && forallb digit a
      && match rev f with
         | z :: d :: f' => N.eqb z 90 && digit d && negb (N.eqb d 48) && forallb digit f'
         | _ => false
         end
  end.
Definition text_ok (k : strkind) (t : list N) : bool :=
  match k with
  | SUTF8 | SUniversal => forallb unicode t
  | SBMP => forallb (fun c => unicode c && N.leb c 65535) t
  | SNumeric => forallb (fun c => digit c || N.eqb c 32) t
  | SPrintable => forallb printable t
  | SIA5 => forallb (fun c => N.leb c 127) t
  | SVisible => forallb (between 32 126) t
  | STeletex | SVideotex | SGraphic | SGeneral | SObjDesc => forallb printable t
  | SGenTime => generalized_time t
  | SUTCTime => utc_time t
  end.

(** X.680 32.3: the first two arcs. *)
Definition arcs_ok (a : list N) : bool :=
  match a with
  | x :: y :: _ => N.leb x 2 && (N.eqb x 2 || N.leb y 39)
  | _ => false
  end.

Definition prim_has (p : sprim) (v : aval) : bool :=
  match p, v with
  | PBool, VBool _ | PInt _, VInt _ | PBits _, VBits _ | PNull, VNull => true
  | PEnum l, VInt z => existsb (fun p => Z.eqb z (snd p)) l
  | POcts, VOcts b => forallb (fun x => N.ltb x 256) b
  | POid, VOid a => arcs_ok a
  | PStr k, VText t => text_ok k t
  | _, _ => false
  end.

(** Values: one slot per component for SEQUENCE and SET (an empty slot for a component with
    a DEFAULT stands for that default), the position of the alternative for CHOICE.  ANY is
    given by the octets of an encoding. *)
Fixpoint has (s : sty) (v : aval) {struct s} : bool :=
  match s with
  | APrim p => prim_has p v
  | AAny => match v with VOcts (x :: b) => forallb (fun x => N.ltb x 256) (x :: b) | _ => false end
  | ASeq fs | ASet fs =>
      match v with
      | VSeq vs =>
          (fix go (fs : list sfield) (vs : list (option aval)) {struct fs} : bool :=
             match fs, vs with
             | [], [] => true
             | SF _ p s' :: fs', o :: vs' =>
                 match o, p with
                 | None, Mandatory => false
                 | None, _ => true
                 | Some x, _ => has s' x
                 end && go fs' vs'
             | _, _ => false
             end) fs vs
      | _ => false
      end
  | ASeqOf s' | ASetOf s' => match v with VList vs => forallb (has s') vs | _ => false end
  | AChoice alts =>
      match v with
      | VAlt i x =>
          (fix go (fs : list sfield) (i : nat) {struct fs} : bool :=
             match fs, i with
             | SF _ _ s' :: _, O => has s' x
             | _ :: fs', S i' => go fs' i'
             | [], _ => false
             end) alts i
      | _ => false
      end
  | ATag _ _ _ s' => has s' v
  | ACon c s' => sok c v && has s' v
  end.

(** The two halves of [has]: values of the right form, and values within the bounds. *)
Definition prim_shape (p : sprim) (v : aval) : bool :=
  match p, v with
  | PBool, VBool _ | PInt _, VInt _ | PEnum _, VInt _ | PBits _, VBits _ | POcts, VOcts _ | PNull, VNull | POid, VOid _ | PStr _, VText _ => true
  | _, _ => false
  end.
Section halves.
  Variable f : sty -> aval -> bool.
  (** [f] at the components that are there. *)
  Fixpoint components (fs : list sfield) (vs : list (option aval)) {struct fs} : bool :=
    match fs, vs with
    | [], [] => true
    | SF _ _ s' :: fs', o :: vs' => match o with Some x => f s' x | None => true end && components fs' vs'
    | _, _ => false
    end.
  Fixpoint alternative (fs : list sfield) (i : nat) (x : aval) {struct fs} : bool :=
    match fs, i with
    | SF _ _ s' :: _, O => f s' x
    | _ :: fs', S i' => alternative fs' i' x
    | [], _ => false
    end.
End halves.
Fixpoint shaped (s : sty) (v : aval) {struct s} : bool :=
  match s with
  | APrim p => prim_shape p v
  | AAny => match v with VOcts _ => true | _ => false end
  | ASeq fs | ASet fs => match v with VSeq vs => components shaped fs vs | _ => false end
  | ASeqOf s' | ASetOf s' => match v with VList vs => forallb (shaped s') vs | _ => false end
  | AChoice alts => match v with VAlt i x => alternative shaped alts i x | _ => false end
  | ATag _ _ _ s' | ACon _ s' => shaped s' v
  end.
Fixpoint bounded (s : sty) (v : aval) {struct s} : bool :=
  match s with
  | APrim _ | AAny => true
  | ASeq fs | ASet fs => match v with VSeq vs => components bounded fs vs | _ => false end
  | ASeqOf s' | ASetOf s' => match v with VList vs => forallb (bounded s') vs | _ => false end
  | AChoice alts => match v with VAlt i x => alternative bounded alts i x | _ => false end
  | ATag _ _ _ s' => bounded s' v
  | ACon c s' => sok c v && bounded s' v
  end.
