(** pyasn1's DER codec (version 0.4.8): pyasn1/codec/{ber,cer,der}/{encoder,decoder}.py,
    over the schema objects of Asn1/Types.v.  The tests and tools of /repo reach it as
    der.encoder.encode(object) and der.decoder.decode(octets, asn1Spec=T, ...). *)
From Coq Require Import List String ZArith NArith Bool Lia.
From Verif Require Import Asn1.Types Py.Eval Asn1.Bytes Asn1.Charset.
From Verif Require Export Asn1.Codec.
Import ListNotations.
Open Scope string_scope.
Open Scope N_scope.
Open Scope list_scope.

(** [Err]: the Python code raises.  [Huge]: the encoder raises because the contents of an
    item have 256^126 octets or more (encodeLength).  [Unm]: outside this model (each use
    says why). *)
Inductive res (A : Type) := Ok (a : A) | Err | Huge | Unm.
Arguments Ok {A}. Arguments Err {A}. Arguments Huge {A}. Arguments Unm {A}.
Definition rbind {A B} (x : res A) (f : A -> res B) : res B :=
  match x with Ok a => f a | Err => Err | Huge => Huge | Unm => Unm end.
Notation "'let!' x ':=' e 'in' k" := (rbind e (fun x => k)) (at level 200, x pattern, right associativity).
Definition of_opt {A} (o : option A) : res A := match o with Some a => Ok a | None => Err end.

(** * Encoder *)

(** ** Primitive contents *)

(** TimeEncoderMixIn.encodeValue (cer/encoder.py): exclusive length bounds, UTC only, and the
    removal of zeros in fractions. *)
Definition time_bounds (k : strkind) : option (nat * nat) :=
  match k with SGenTime => Some (12, 20)%nat | SUTCTime => Some (10, 14)%nat | _ => None end.
Fixpoint split_dot (l : list N) : option (list N * list N) :=
  match l with
  | [] => None
  | c :: l' => if c =? 46 then Some ([], l')
               else match split_dot l' with Some (a, b) => Some (c :: a, b) | None => None end
  end.
Definition drop_zeros (t : list N) : res (list N) :=
  match split_dot t with
  | None => Ok t
  | Some (a, f) =>
      let w := firstn 4 f in
      if existsb (N.eqb 46) w then Unm      (* a second '.' within the fraction *)
      else let f' := filter (fun c => negb (c =? 48)) w ++ skipn 4 f in
           match f' with
           | 90 :: _ => Ok (a ++ f')
           | _ => Ok (a ++ 46 :: f')
           end
  end.
Definition norm_time (lo hi : nat) (t : list N) : res (list N) :=
  if existsb (fun c => (c =? 43) || (c =? 45) || (c =? 44)) t then Err      (* + - , *)
  else if negb (last t 0 =? 90) then Err                                   (* Z *)
  else let! t' := drop_zeros t in
       if (Nat.ltb lo (List.length t') && Nat.ltb (List.length t') hi)%bool then Ok t' else Err.

(** encodeValue of the simple types.  A value of the wrong shape for its type cannot be
    built in pyasn1: [Unm]. *)
Definition enc_prim (k : prim) (v : aval) : res bytes :=
  match k, v with
  | KBool, VBool b => Ok [if b then 255 else 0]
  | (KInt | KEnum), VInt z => Ok (enc_int z)
  | KBits, VBits l => Ok (enc_bits l)
  | KOcts, VOcts b | KAny, VOcts b => Ok b
  | KNull, VNull => Ok []
  | KOid, VOid a => of_opt (enc_oid a)
  | KStr k, VText t =>
      match time_bounds k with
      | None => of_opt (enc_text (charset_of k) t)
      | Some (lo, hi) => let! t' := norm_time lo hi t in of_opt (enc_text (charset_of k) t')
      end
  | _, _ => Unm
  end.

(** ** Tags *)

Definition put_header (t : tag) (k : bool) (c : bytes) : res bytes :=
  match enc_header t k c with Some s => Ok s | None => Huge end.
(** The loop over tagSet.superTags in AbstractItemEncoder.encode: [k] is isConstructed. *)
Fixpoint wrap (ts : list tag) (k : bool) (c : bytes) : res bytes :=
  match ts with
  | [] => Ok c
  | t :: ts' => let! c' := put_header t k c in wrap ts' k c'
  end.
(** AbstractItemEncoder.encode after encodeValue: untagged items are returned as they are,
    and under ifNotEmpty an empty constructed encoding is dropped, tags and all. *)
Definition finish (ts : list tag) (k ine : bool) (c : bytes) : res bytes :=
  match ts, c with
  | [], _ => Ok c
  | _, [] => if k && ine then Ok [] else wrap ts k c
  | _, _ => wrap ts k c
  end.

(** ** Sorting *)

Section sort.
  Context {A : Type} (le : A -> A -> bool).
  Fixpoint insert (x : A) (l : list A) : list A :=
    match l with
    | [] => [x]
    | y :: l' => if le x y then x :: y :: l' else y :: insert x l'
    end.
  (** Stable sort (Python's sorted). *)
  Fixpoint isort (l : list A) : list A :=
    match l with [] => [] | x :: l' => insert x (isort l') end.
End sort.

(** Tag.__lt__: (class, number). *)
Definition tag_cmp (a b : tag) : comparison :=
  match N.compare (class_num (tcls a)) (class_num (tcls b)) with Eq => N.compare (tnum a) (tnum b) | c => c end.
Fixpoint list_cmp {A} (cmp : A -> A -> comparison) (a b : list A) : comparison :=
  match a, b with
  | [], [] => Eq
  | [], _ => Lt
  | _, [] => Gt
  | x :: a', y :: b' => match cmp x y with Eq => list_cmp cmp a' b' | c => c end
  end.
(** TagSet.__le__ compares the superTags tuples, innermost tag first. *)
Definition tags_le (a b : list tag) : bool :=
  match list_cmp tag_cmp a b with Gt => false | _ => true end.
(** bytes comparison of SetOfEncoder: both padded with zeros to the same length. *)
Fixpoint octs_le (a b : bytes) : bool :=
  match a, b with
  | [], _ => true                              (* 00.. <= anything *)
  | x :: a', [] => (x =? 0) && octs_le a' []
  | x :: a', y :: b' => (x <? y) || ((x =? y) && octs_le a' b')
  end.

(** Sort key of a SET component (der SetEncoder._componentSortKey). *)
Definition own_tags (v : aval) (t : asn1) : list tag :=
  match v with VTyped t' _ => tags (meta_of t') | _ => tags (meta_of t) end.
Definition nth_alt (alts : list field) (i : nat) : option asn1 :=
  match nth_error alts i with Some f => Some (ftype f) | None => None end.
Definition sort_key (t : asn1) (o : option aval) : list tag :=
  match t, o with
  | TChoice m alts, Some (VAlt i v) =>
      match tags m with
      | [] => match nth_alt alts i with Some t' => own_tags v t' | None => [] end
      | ts => ts
      end
  | _, Some v => own_tags v t
  | _, None => tags (meta_of t)
  end.

(** ** Absent components *)

(** Encoding a schema object that was never assigned (value.values() instantiates absent
    components): Null has no contents, an unconstrained SEQUENCE OF is empty, a SEQUENCE
    recurses; anything else raises.  A mandatory component whose schema object is simple and
    carries a value (rfc1157.py:27) gets that value. *)
Definition enc_kept (t : asn1) (d : option aval) : option (res bytes) :=
  match t, d with
  | TPrim k m, Some v => Some (let! c := enc_prim k v in finish (tags m) false false c)
  | _, _ => None
  end.
Fixpoint enc_absent (ine : bool) (t : asn1) : res bytes :=
  match t with
  | TPrim KNull m => finish (tags m) false ine []
  | TPrim _ _ => Err
  | TOf _ m _ => if ctruthy (spec m) then Err else finish (tags m) true ine []
  | TChoice _ _ => Err
  | TSeq isset m fs =>
      if ctruthy (spec m) then Err
      else
        let! cs := (fix go (fs : list field) : res (list (list tag * bytes)) :=
          match fs with
          | [] => Ok []
          | Fld _ p t' d _ :: fs' =>
              let! r := go fs' in
              match p with
              | Req => let! c := match enc_kept t' d with Some c => c | None => enc_absent false t' end in Ok ((tags (meta_of t'), c) :: r)
              | _ => Ok r
              end
          end) fs in
        let cs := if isset then isort (fun a b => tags_le (fst a) (fst b)) cs else cs in
        finish (tags m) true ine (List.concat (map snd cs))
  end.

(** ** The encoder *)

Definition is_opt (p : presence) : bool := match p with Opt => true | _ => false end.
Definition is_some {A} (o : option A) : bool := match o with Some _ => true | None => false end.
Definition fnames (fs : list field) : list string := map fname fs.

(** [wrapT]: the slot is an open type (or an element of one), whose schema object is the
    slot's type; a component of another type is wrapped in it.  [ine] is ifNotEmpty. *)
Fixpoint enc (v : aval) (opn ine : bool) (t : asn1) {struct v} : res bytes :=
  match v with
  | VTyped t' o =>
      let! c := match o with Some v' => enc v' false ine t' | None => enc_absent ine t' end in
      if opn && negb (tags_eqb (tags (meta_of t)) (tags (meta_of t')) && cons_eqb (spec (meta_of t)) (spec (meta_of t')))
      then match t with
           | TPrim KAny m | TPrim KOcts m => finish (tags m) false ine c
           | _ => Unm                          (* open slots of the repository are ANY or OCTET STRING *)
           end
      else Ok c
  | VSeq vs =>
      match t with
      | TSeq isset m fs =>
          if ctruthy (spec m) && negb (csat (fnames fs) (spec m) v) then Err
          else
            let! cs := (fix go (vs : list (option aval)) (fs : list field) {struct vs} : res (list (list tag * bytes)) :=
              match vs, fs with
              | [], [] => Ok []
              | o :: vs', Fld _ p t' d opn' :: fs' =>
                  let! r := go vs' fs' in
                  match o with
                  | None =>
                      match p with
                      | Req => let! c := match enc_kept t' d with Some c => c | None => enc_absent false t' end in Ok ((sort_key t' None, c) :: r)
                      | _ => Ok r
                      end
                  | Some x =>
                      match p, d with
                      | Def, None => Err       (* comparison with a schema object raises *)
                      | Def, Some dv =>
                          if aval_eqb x dv then Ok r
                          else let! c := enc x (is_some opn') false t' in Ok ((sort_key t' o, c) :: r)
                      | _, _ => let! c := enc x (is_some opn') (is_opt p) t' in Ok ((sort_key t' o, c) :: r)
                      end
                  end
              | _, _ => Unm
              end) vs fs in
            let cs := if isset then isort (fun a b => tags_le (fst a) (fst b)) cs else cs in
            finish (tags m) true ine (List.concat (map snd cs))
      | _ => Unm
      end
  | VList vs =>
      match t with
      | TOf isset m (Some t') =>
          if ctruthy (spec m) && negb (csat [] (spec m) v) then Err
          else
            let! cs := (fix go (vs : list aval) {struct vs} : res (list bytes) :=
              match vs with
              | [] => Ok []
              | x :: vs' => let! c := enc x opn ine t' in
                            let! r := go vs' in Ok (c :: r)
              end) vs in
            let cs := if isset then isort octs_le cs else cs in
            finish (tags m) true ine (List.concat cs)
      | _ => Unm                               (* components without a type *)
      end
  | VAlt i x =>
      match t with
      | TChoice m alts =>
          match nth_alt alts i with
          | Some t' => let! c := enc x false ine t' in finish (tags m) true ine c
          | None => Unm
          end
      | _ => Unm
      end
  | _ =>
      match t with
      | TPrim k m => let! c := enc_prim k v in finish (tags m) false ine c
      | _ => Unm
      end
  end.

(** der.encoder.encode(value) *)
Definition encode (t : asn1) (v : aval) : res bytes := enc v false false t.

(** * Decoder *)

(** ** Tag maps (pyasn1.type.namedtype, tagmap) *)

Definition eoo : list tag := [mkTag Universal false 0].
Definition mem_tags (x : list tag) (l : list (list tag)) : bool := existsb (tags_eqb x) l.
Fixpoint distinct (l : list (list tag)) : bool :=
  match l with [] => true | x :: l' => negb (mem_tags x l') && distinct l' end.
Definition count {A} (f : A -> bool) (l : list A) : nat := List.length (filter f l).

(** tagMap of a type: keys of presentTypes; has a defaultType (ANY, everything but
    end-of-octets); is not a PostponedError. *)
Record tmap := mkT { keys : list (list tag); dflt : bool; tok : bool }.
Definition tmap_union (l : list tmap) : tmap :=
  let ks := flat_map keys l in
  mkT ks (existsb dflt l) (forallb tok l && distinct ks && Nat.leb (count dflt l) 1).
Fixpoint tag_map (t : asn1) : tmap :=
  match t with
  | TPrim KAny m => mkT [tags m] true true
  | TChoice m alts =>
      match tags m with
      | [] => tmap_union ((fix go (l : list field) : list tmap :=
                match l with [] => [] | Fld _ _ t' _ _ :: l' => tag_map t' :: go l' end) alts)
      | ts => mkT [ts] false true
      end
  | _ => mkT [tags (meta_of t)] false true
  end.
(** TagMap.__contains__ *)
Definition accepts (M : tmap) (ts : list tag) : bool :=
  mem_tags ts (keys M) || (dflt M && negb (tags_eqb ts eoo)).

(** ** Reading headers until the tags are known *)

(** States stDecodeTag to stTryAsExplicitTag of Decoder.__call__, with ExplicitTagDecoder:
    read a header; if the tags so far are accepted stop, else, if the last one is a
    constructed non-universal tag, continue inside (octets after the inner item are
    dropped).  Returns the tags (innermost first), the innermost item with and without
    its header, and the input after the outermost item. *)
Fixpoint descend (fuel : nat) (accept : list tag -> bool) (ts : list tag) (s : bytes)
  : res (list tag * bytes * bytes * bytes) :=
  match fuel with
  | O => Err
  | S f =>
      match dec_header s with
      | None => Err
      | Some (g, c, rest) =>
          let ts' := g :: ts in
          if accept ts' then Ok (ts', firstn (List.length s - List.length rest) s, c, rest)
          else if tcons g && negb (tclass_eqb (tcls g) Universal) then
            let! (p, _) := descend f accept ts' c in
            Ok (p, rest)
          else Err
      end
  end.
Definition item (accept : list tag -> bool) (s : bytes) := descend (List.length s) accept [] s.

(** ** Primitive contents *)

Definition simple (ts : list tag) : bool := match ts with t :: _ => negb (tcons t) | [] => false end.

(** The substrateCollector loop of OctetStringDecoder.valueDecoder: the contents of the
    segments of a string in constructed form, one after the other.  A segment has the universal
    tag [n] of the string's base type, or any constructed tag that is not universal
    (ExplicitTagDecoder with substrateFun); it is not looked into. *)
Fixpoint segments (fuel : nat) (n : N) (s : bytes) : res (list bytes) :=
  match s, fuel with
  | [], _ => Ok []
  | _, O => Err
  | _, S f =>
      match dec_header s with
      | None => Err
      | Some (g, c, rest) =>
          if tags_eqb [g] [mkTag Universal false n] || tcons g && negb (tclass_eqb (tcls g) Universal) then
            let! r := segments f n rest in Ok (c :: r)
          else Err
      end
  end.
(** The same for BitStringDecoder: each segment says how many bits of its last octet are
    unused; without octets none may be (len() of a negative length). *)
Fixpoint joined_bits (l : list bytes) : res (list bool) :=
  match l with
  | [] => Ok []
  | c :: l' =>
      let! a := of_opt (dec_bits c) in
      let! b := joined_bits l' in Ok (a ++ b)
  end.
(** The universal tags of the character strings and times. *)
Definition string_tag (k : strkind) : N :=
  match k with
  | SObjDesc => 7 | SUTF8 => 12 | SNumeric => 18 | SPrintable => 19 | STeletex => 20 | SVideotex => 21 | SIA5 => 22
  | SUTCTime => 23 | SGenTime => 24 | SGraphic => 25 | SVisible => 26 | SGeneral => 27 | SUniversal => 28 | SBMP => 30
  end.

Section decoder.
Context {Cdc : codec}.

(** valueDecoder of the simple types; [tlv] is the item with its header ('fullSubstrate'). *)
Definition dec_prim (k : prim) (m : meta) (ts : list tag) (tlv c : bytes) : res aval :=
  match k with
  | KBool =>
      if simple ts then
        match c with
        | [b] => if b =? 255 then Ok (VBool true) else if b =? 0 then Ok (VBool false) else if lax then Ok (VBool true) else Err
        | _ => if lax then Ok (VBool (negb (dec_int c =? 0)%Z)) else Err
        end
      else if lax then Err
      else match c with [b] => if b =? 255 then Ok (VBool true) else if b =? 0 then Ok (VBool false) else Err | _ => Err end
  | KInt | KEnum => if simple ts then Ok (VInt (dec_int c)) else Err
  | KBits => match c with
             | [] => Err
             | _ =>
                 if simple ts then
                   match c with
                   | [p] => if p =? 0 then Ok (VBits []) else if 7 <? p then Err else Unm  (* negative length *)
                   | _ => let! l := of_opt (dec_bits c) in Ok (VBits l)
                   end
                 else if lax then let! l := segments (List.length c) 3 c in let! b := joined_bits l in Ok (VBits b)
                 else Err
             end
  | KOcts => if simple ts then Ok (VOcts c)
             else if lax then let! l := segments (List.length c) 4 c in Ok (VOcts (List.concat l))
             else Err
  | KNull => if simple ts then match c with [] => Ok VNull | _ => Err end else Err
  | KOid => if simple ts then let! a := of_opt (dec_oid c) in Ok (VOid a) else Err
  | KAny => Ok (VOcts (if tags_eqb ts (tags m) then c else tlv))
  | KStr k =>
      if simple ts then let! t := of_opt (dec_text (charset_of k) c) in Ok (VText t)
      else let! l := segments (List.length c) (string_tag k) c in
           let! t := of_opt (dec_text (charset_of k) (List.concat l)) in Ok (VText t)
  end.

(** ** Components *)

(** What the decoder needs to know about a component: presence and default, tag map,
    whether it is an ANY itself, and its value decoder (tags, item, contents). *)
Record comp := mkC { c_pres : presence; c_def : option aval; c_map : tmap; c_any : bool;
                     c_val : list tag -> bytes -> bytes -> res aval }.

Fixpoint find_key (i : nat) (cs : list comp) (ts : list tag) : option (nat * comp) :=
  match cs with
  | [] => None
  | c :: cs' => if mem_tags ts (keys (c_map c)) then Some (i, c) else find_key (S i) cs' ts
  end.
Fixpoint find_dflt (i : nat) (cs : list comp) : option (nat * comp) :=
  match cs with
  | [] => None
  | c :: cs' => if dflt (c_map c) then Some (i, c) else find_dflt (S i) cs'
  end.
(** The component whose type is chosen for these tags, and its position. *)
Definition choose (cs : list comp) (ts : list tag) : res (nat * comp) :=
  match find_key 0 cs ts with
  | Some p => Ok p
  | None => match find_dflt 0 cs with
            | Some (i, c) => if c_any c then Ok (i, c)
                             else Unm          (* ANY inside an untagged CHOICE *)
            | None => Err
            end
  end.
(** Decode one item with a TagMap as asn1Spec, and find its position by effectiveTagSet. *)
Definition dec_run (cs : list comp) (s : bytes) : res (nat * aval * bytes) :=
  let M := tmap_union (map c_map cs) in
  if tok M then
    let! (ts, tlv, c, rest) := item (accepts M) s in
    let! (i, k) := choose cs ts in
    let! v := c_val k ts tlv c in
    Ok (i, v, rest)
  else Err.
(** Decode one item with the component's type as asn1Spec. *)
Definition dec_one (k : comp) (s : bytes) : res (aval * bytes) :=
  if tok (c_map k) then
    let! (ts, tlv, c, rest) := item (accepts (c_map k)) s in
    let! v := c_val k ts tlv c in
    Ok (v, rest)
  else Err.

Definition absent (k : comp) : option aval := match c_pres k with Def => c_def k | _ => None end.
Definition required (k : comp) : bool := match c_pres k with Req => true | _ => false end.
(** NamedTypes.__computeAmbiguousTypes: up to and including the next required component. *)
Fixpoint run (cs : list comp) : list comp :=
  match cs with
  | [] => []
  | c :: cs' => if required c then [c] else c :: run cs'
  end.

(** SequenceOrSequenceOfDecoder.valueDecoder, SEQUENCE: [cs] are the components from the
    current position on. *)
Fixpoint dec_seq (fuel : nat) (cs : list comp) (s : bytes) : res (list (option aval)) :=
  match s with
  | [] => if existsb required cs then Err else Ok (map absent cs)
  | _ =>
      match fuel, cs with
      | _, [] => Err                            (* Excessive components decoded *)
      | O, _ => Err
      | S f, c :: cs' =>
          if required c then
            let! (v, s') := dec_one c s in
            let! r := dec_seq f cs' s' in Ok (Some v :: r)
          else
            let! (i, v, s') := dec_run (run cs) s in
            let! r := dec_seq f (skipn (S i) cs) s' in
            Ok (map absent (firstn i cs) ++ Some v :: r)
      end
  end.

Fixpoint set_nth {A} (i : nat) (x : A) (l : list A) : list A :=
  match l, i with
  | [], _ => []
  | _ :: l', O => x :: l'
  | y :: l', S i' => y :: set_nth i' x l'
  end.
(** The same, SET. *)
Fixpoint dec_set (fuel : nat) (cs : list comp) (slots : list (option aval)) (s : bytes) : res (list (option aval)) :=
  match s, fuel with
  | [], _ => Ok slots
  | _, O => Err
  | _, S f => let! (i, v, s') := dec_run cs s in
              dec_set f cs (set_nth i (Some v) slots) s'
  end.
Fixpoint fill (cs : list comp) (slots : list (option aval)) : res (list (option aval)) :=
  match cs, slots with
  | [], [] => Ok []
  | c :: cs', o :: slots' =>
      let! r := fill cs' slots' in
      match o with
      | Some v => Ok (Some v :: r)
      | None => if required c then Err else Ok (absent c :: r)
      end
  | _, _ => Err
  end.

(** SEQUENCE OF and SET OF *)
Fixpoint dec_list (fuel : nat) (k : comp) (s : bytes) : res (list aval) :=
  match s, fuel with
  | [], _ => Ok []
  | _, O => Err
  | _, S f => let! (v, s') := dec_one k s in
              let! r := dec_list f k s' in Ok (v :: r)
  end.

(** ** Open types *)

(** [None]: no entry for the governing value. *)
Definition opener := did -> key -> option (bytes -> res aval).

Definition gov_key (o : option aval) : option key :=
  match o with
  | Some (VOid a) => Some (KeyOid a)
  | Some (VInt z) => Some (KeyInt z)
  | _ => None
  end.
Fixpoint slot_of (fs : list field) (vs : list (option aval)) (n : string) : option aval :=
  match fs, vs with
  | f :: fs', o :: vs' => if String.eqb (fname f) n then o else slot_of fs' vs' n
  | _, _ => None
  end.
Definition reopen (f : bytes -> res aval) (v : aval) : res aval :=
  match v with VOcts b => f b | _ => Unm end.
Fixpoint rmap {A B} (f : A -> res B) (l : list A) : res (list B) :=
  match l with
  | [] => Ok []
  | x :: l' => let! y := f x in let! r := rmap f l' in Ok (y :: r)
  end.
(** One component of a SEQUENCE with open types. *)
Definition open_slot (O : opener) (fs : list field) (vs : list (option aval)) (f : field) (o : option aval) : res (option aval) :=
  match fopen f, o with
  | None, _ => Ok o
  | Some _, None => Ok o                       (* an absent optional component *)
  | Some (n, d), Some v =>
      match gov_key (slot_of fs vs n) with
      | None => if existsb (String.eqb n) (fnames fs)
                then Unm                       (* governor absent, or neither OID nor INTEGER *)
                else Err                       (* getComponentByName: no such component *)
      | Some k =>
          match O d k with
          | None => Ok o
          | Some g =>
              match v with
              | VList l => let! l' := rmap (reopen g) l in Ok (Some (VList l'))
              | _ => let! v' := reopen g v in Ok (Some v')
              end
          end
      end
  end.
Fixpoint open_slots (O : opener) (fs0 : list field) (vs0 : list (option aval)) (fs : list field) (vs : list (option aval))
  : res (list (option aval)) :=
  match fs, vs with
  | [], [] => Ok []
  | f :: fs', o :: vs' =>
      let! o' := open_slot O fs0 vs0 f o in
      let! r := open_slots O fs0 vs0 fs' vs' in Ok (o' :: r)
  | _, _ => Err
  end.

(** ** Values *)

Definition is_any (t : asn1) : bool := match t with TPrim KAny _ => true | _ => false end.
Definition constructed (ts : list tag) : bool := match ts with t :: _ => tcons t | [] => false end.

(** valueDecoder of each type: tags read, item, contents.  [O] is None unless
    decodeOpenTypes is set. *)
Fixpoint dec_val (O : option opener) (t : asn1) (ts : list tag) (tlv c : bytes) {struct t} : res aval :=
  let fix comps (fs : list field) : list comp :=
    match fs with
    | [] => []
    | Fld _ p t' d _ :: fs' => mkC p d (tag_map t') (is_any t') (dec_val O t') :: comps fs'
    end in
  match t with
  | TPrim k m =>
      let! v := dec_prim k m ts tlv c in
      if csat [] (spec m) v then Ok v else Err
  | TSeq isset m fs =>
      if constructed ts then
        match fs, c with
        | [], _ :: _ => Unm                    (* decoding without a schema *)
        | _, _ =>
            let cs := comps fs in
            let! vs := if isset then let! sl := dec_set (List.length c) cs (map (fun _ => None) cs) c in fill cs sl
                       else dec_seq (List.length cs) cs c in
            if existsb (fun f => is_some (fopen f)) fs then
              match O with
              | None => Ok (VSeq vs)
              | Some Op => let! vs' := open_slots Op fs vs fs vs in Ok (VSeq vs')
              end
            else if ctruthy (spec m) && negb (csat (fnames fs) (spec m) (VSeq vs)) then Err
            else Ok (VSeq vs)
        end
      else Err
  | TOf isset m e =>
      if constructed ts then
        match e, c with
        | Some t', _ => let! l := dec_list (List.length c) (mkC Req None (tag_map t') (is_any t') (dec_val O t')) c in Ok (VList l)
        | None, [] => Ok (VList [])
        | None, _ => Unm                       (* decoding without a schema *)
        end
      else Err
  | TChoice m alts =>
      let cs := comps alts in
      if tags_eqb ts (tags m) then
        let! (i, v, _) := dec_run cs c in Ok (VAlt i v)
      else
        let! (i, k) := choose cs ts in
        let! v := c_val k ts c c in            (* the header is not passed on *)
        Ok (VAlt i v)
  end.

Definition comp_of (O : option opener) (t : asn1) : comp := mkC Req None (tag_map t) (is_any t) (dec_val O t).
(** der.decoder.decode(octets, asn1Spec=t, decodeOpenTypes=...) *)
Definition decode_with (O : option opener) (t : asn1) (s : bytes) : res (aval * bytes) := dec_one (comp_of O t) s.
Definition decode (t : asn1) (s : bytes) : res (aval * bytes) := decode_with None t s.

End decoder.
