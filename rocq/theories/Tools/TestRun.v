(** Running the programs of Tools/TestLang.v: the test methods of /repo/tests on the model.

    The operations on pyasn1 objects that the tests use beyond those of the codec are those of
    pyasn1 0.4.8 (type/univ.py, type/char.py, type/base.py) and are in the trusted base with it.
    Where a result is not modelled the run is [Stuck]; a failed assertion or an exception is
    [Raise].  A test passes when its run is [OK]. *)
From Coq Require Import List String ZArith NArith Bool Ascii.
From Verif Require Pem.Text Pem.Base64 Pem.Pem.
From Verif Require Import Py.Syntax Asn1.Types Py.Eval Asn1.Bytes Asn1.Der Asn1.Wf Asn1.Open Asn1.OpenDepth
  Load.Import Load.Table Load.Registry Load.Schemas Load.CheckedFacts Tools.Programs Tools.TestLang.
Import ListNotations.
Open Scope string_scope.
Open Scope list_scope.

Section codec.
Context {Cdc : codec}.

(** Values of a test: Python's own, and pyasn1 objects ([UObj t None]: an object without a
    value).  [UOpaque] is a text that is not empty, and of which nothing else is known. *)
Inductive tv :=
| UNone | UInt (z : Z) | UBool (b : bool) | UText (t : list N) | UOpaque | UBytes (b : bytes)
| UList (l : list tv) | UDict (l : list (tv * tv)) | UObj (t : asn1) (v : option aval)
| UFun (x : string) (e : tx).

(** ** The Python value behind an object *)

(** Objects compare by the Python values they hold (AbstractSimpleAsn1Item.__eq__,
    SequenceOfAndSetOfBase.__eq__, Choice.__eq__); Null holds b''.  [None]: not modelled. *)
Inductive raw := RNone | RInt (z : Z) | RBytes (b : bytes) | RText (t : list N) | RArcs (a : list N) | RBits (b : list bool) | RList (l : list raw)
| RParts.                                        (* the components of a Sequence or Set *)
Fixpoint raw_of (v : aval) : option raw :=
  match v with
  | VBool b => Some (RInt (if b then 1 else 0))
  | VInt z => Some (RInt z)
  | VBits b => Some (RBits b)
  | VOcts b => Some (RBytes b)
  | VNull => Some (RBytes [])
  | VOid a => Some (RArcs a)
  | VText t => Some (RText t)
  | VSeq _ => Some RParts
  | VList vs => match (fix all (l : list aval) := match l with
                  | [] => Some []
                  | x :: l' => match raw_of x, all l' with Some a, Some b => Some (a :: b) | _, _ => None end
                  end) vs with Some l => Some (RList l) | None => None end
  | VAlt _ x => raw_of x
  | VTyped _ (Some x) => raw_of x
  | VTyped _ None => None
  end.
Fixpoint raw_tv (v : tv) : option raw :=
  match v with
  | UNone => Some RNone
  | UInt z => Some (RInt z)
  | UBool b => Some (RInt (if b then 1 else 0))
  | UText t => Some (RText t)
  | UBytes b => Some (RBytes b)
  | UObj _ (Some x) => raw_of x
  | UList l => match (fix all (l : list tv) := match l with
                 | [] => Some []
                 | x :: l' => match raw_tv x, all l' with Some a, Some b => Some (a :: b) | _, _ => None end
                 end) l with Some l => Some (RList l) | None => None end
  | _ => None
  end.
(** Values of different Python types are unequal, but a tuple may equal the arcs of an object
    identifier, a bit string is also compared as a number, and the components of a Sequence
    are compared only with values that are no sequences. *)
Fixpoint raw_eqb (a b : raw) : option bool :=
  match a, b with
  | RNone, RNone => Some true
  | RInt x, RInt y => Some (Z.eqb x y)
  | RBytes x, RBytes y => Some (list_eqb N.eqb x y)
  | RText x, RText y => Some (list_eqb N.eqb x y)
  | RArcs x, RArcs y => Some (list_eqb N.eqb x y)
  | RBits x, RBits y => Some (list_eqb Bool.eqb x y)
  | RList x, RList y =>
      (fix all (x y : list raw) := match x, y with
        | [], [] => Some true
        | a :: x', b :: y' => match raw_eqb a b with Some true => all x' y' | o => o end
        | _, _ => Some false
        end) x y
  | RArcs _, RList _ | RList _, RArcs _ | RBits _, _ | _, RBits _ => None
  | RParts, (RParts | RList _ | RArcs _) | (RList _ | RArcs _), RParts => None
  | _, _ => Some false
  end.
Definition equal (a b : tv) : r bool :=
  match raw_tv a, raw_tv b with
  | Some x, Some y => match raw_eqb x y with Some e => OK e | None => Stuck "==" end
  | _, _ => Stuck "== on a value without a Python value"
  end.

(** ** Access *)

(** The object in a component: of the component's type, or (in an open slot) of its own. *)
Definition held (t : asn1) (v : aval) : tv := match v with VTyped t' o => UObj t' o | _ => UObj t (Some v) end.
Fixpoint find_field (fs : list field) (n : string) (i : nat) : option (nat * field) :=
  match fs with
  | [] => None
  | f :: fs' => if String.eqb (fname f) n then Some (i, f) else find_field fs' n (S i)
  end.
Definition text_of (t : list N) : string := string_of_list_ascii (map ascii_of_N t).
(** o['name']: a component that is absent is instantiated from its type, with the default if
    there is one (Sequence.getComponentByPosition, instantiate=True).  Reading an alternative
    that is not chosen changes a Choice: not modelled. *)
Definition by_name (t : asn1) (v : option aval) (n : string) : r tv :=
  match t with
  | TSeq _ _ fs =>
      match find_field fs n 0, v with
      | Some (i, f), Some (VSeq vs) =>
          match nth i vs None with Some x => OK (held (ftype f) x) | None => OK (UObj (ftype f) (fdef f)) end
      | Some _, _ => Stuck "component of an object without a value"
      | None, _ => Raise "KeyError"
      end
  | TChoice _ fs =>
      match find_field fs n 0, v with
      | Some (i, f), Some (VAlt j x) => if Nat.eqb i j then OK (held (ftype f) x) else Stuck "alternative"
      | Some _, _ => Stuck "alternative"
      | None, _ => Raise "KeyError"
      end
  | _ => Stuck "subscript"
  end.
Definition position (z : Z) (n : nat) : option nat :=
  if Z.leb 0 z then Some (Z.to_nat z)
  else if Z.leb 0 (z + Z.of_nat n) then Some (Z.to_nat (z + Z.of_nat n)) else None.
Definition pick {A} (l : list A) (z : Z) (f : A -> tv) : r tv :=
  match position z (List.length l) with
  | Some i => match nth_error l i with Some x => OK (f x) | None => Raise "IndexError" end
  | None => Raise "IndexError"
  end.
Fixpoint at_key (l : list (tv * tv)) (k : tv) : r (option tv) :=
  match l with
  | [] => OK None
  | (k', v) :: l' => do e <- equal k' k; if e then OK (Some v) else at_key l' k
  end.
Definition index (a i : tv) : r tv :=
  match a, i with
  | UDict l, _ => do o <- at_key l i; match o with Some v => OK v | None => Raise "KeyError" end
  | UObj t v, UText n => by_name t v (text_of n)
  | UObj (TOf _ _ (Some t)) (Some (VList l)), UInt z => pick l z (held t)
  | UObj (TSeq _ _ fs as t) v, UInt z => match nth_error fs (Z.to_nat z) with
                                    | Some f => if Z.leb 0 z then by_name t v (fname f) else Stuck "subscript"
                                    | None => Raise "IndexError" end
  | UObj (TChoice _ fs as t) v, UInt z => match nth_error fs (Z.to_nat z) with
                                          | Some f => if Z.leb 0 z then by_name t v (fname f) else Stuck "subscript"
                                          | None => Raise "IndexError" end
  | UObj _ (Some (VOid l)), UInt z => pick l z (fun n => UInt (Z.of_N n))
  | UObj _ (Some (VText l)), UInt z => pick l z (fun n => UText [n])
  | UObj _ (Some (VOcts l)), UInt z => pick l z (fun n => UInt (Z.of_N n))
  | UList l, UInt z => pick l z (fun x => x)
  | UBytes l, UInt z => pick l z (fun n => UInt (Z.of_N n))
  | _, _ => Stuck "subscript"
  end.
(** l[lo:hi] of a Python sequence. *)
Definition clip (z : option Z) (dflt n : nat) : nat :=
  match z with
  | None => dflt
  | Some z => if Z.leb 0 z then Nat.min (Z.to_nat z) n else Z.to_nat (Z.max 0 (z + Z.of_nat n))
  end.
Definition cut {A} (l : list A) (lo hi : option Z) : list A :=
  let n := List.length l in let a := clip lo 0 n in firstn (clip hi n n - a) (skipn a l).
Definition slice (a : tv) (lo hi : option Z) : r tv :=
  match a with
  | UText t => OK (UText (cut t lo hi))
  | UBytes b => OK (UBytes (cut b lo hi))
  | UList l => OK (UList (cut l lo hi))
  | UObj t (Some (VOcts b)) => OK (UObj t (Some (VOcts (cut b lo hi))))
  | UObj t (Some (VText b)) => OK (UObj t (Some (VText (cut b lo hi))))
  | UObj t (Some (VOid b)) => OK (UObj t (Some (VOid (cut b lo hi))))
  | _ => Stuck "slice"
  end.
(** Iteration. *)
Definition elements (a : tv) : r (list tv) :=
  match a with
  | UList l => OK l
  | UDict l => OK (map fst l)
  | UObj (TOf _ _ (Some t)) (Some (VList l)) => OK (map (held t) l)
  | UObj _ (Some (VOid l)) => OK (map (fun n => UInt (Z.of_N n)) l)
  | _ => Stuck "iteration"
  end.
Fixpoint some_equal (l : list tv) (x : tv) : r bool :=
  match l with
  | [] => OK false
  | y :: l' => do e <- equal y x; if e then OK true else some_equal l' x
  end.
Fixpoint starts {A} (eqb : A -> A -> bool) (p l : list A) : bool :=
  match p, l with
  | [], _ => true
  | a :: p', b :: l' => if eqb a b then starts eqb p' l' else false
  | _, [] => false
  end.
Fixpoint contains (p l : list N) : bool :=
  if starts N.eqb p l then true else match l with [] => false | _ :: l' => contains p l' end.
(** x in a: keys, elements, component names, part of a text or of octets.  A text is looked for
    in the text of a character string, octets in those of an octet string. *)
Definition member (x a : tv) : r bool :=
  match a, x with
  | UText t, UText p => OK (contains p t)
  | UBytes b, UBytes p => OK (contains p b)
  | UObj (TPrim _ _) (Some (VText t)), UText p => OK (contains p t)
  | UObj (TPrim _ _) (Some (VOcts b)), UBytes p => OK (contains p b)
  | UObj (TSeq _ _ fs) (Some _), UText n => OK (match find_field fs (text_of n) 0 with Some _ => true | None => false end)
  | UObj (TChoice _ fs) (Some (VAlt i _)), UText n => OK (match nth_error fs i with Some f => String.eqb (fname f) (text_of n) | None => false end)
  | UObj (TPrim _ _) (Some (VOid l)), UInt z => OK (existsb (fun n => Z.eqb (Z.of_N n) z) l)
  | _, _ => do l <- elements a; some_equal l x
  end.
Definition truthy (a : tv) : r bool :=
  match a with
  | UNone => OK false
  | UInt z => OK (negb (Z.eqb z 0))
  | UBool b => OK b
  | UText t => OK (negb (Nat.eqb (List.length t) 0))
  | UBytes t => OK (negb (Nat.eqb (List.length t) 0))
  | UList t => OK (negb (Nat.eqb (List.length t) 0))
  | UDict t => OK (negb (Nat.eqb (List.length t) 0))
  | UOpaque | UFun _ _ => OK true
  | UObj (TPrim _ _) (Some (VInt z)) => OK (negb (Z.eqb z 0))
  | UObj (TPrim _ _) (Some (VBool b)) => OK b
  | UObj (TPrim _ _) (Some (VOcts t)) => OK (negb (Nat.eqb (List.length t) 0))
  | UObj (TPrim _ _) (Some (VText t)) => OK (negb (Nat.eqb (List.length t) 0))
  | UObj (TPrim _ _) (Some (VOid t)) => OK (negb (Nat.eqb (List.length t) 0))
  | UObj (TPrim _ _) (Some (VBits t)) => OK (negb (Nat.eqb (List.length t) 0))
  | UObj (TPrim _ _) (Some VNull) => OK false
  | UObj (TOf _ _ _) (Some (VList t)) => OK (negb (Nat.eqb (List.length t) 0))
  | UObj (TSeq _ _ fs) (Some _) => OK (negb (Nat.eqb (List.length fs) 0))
  | UObj (TChoice _ _) (Some _) => OK true
  | _ => Stuck "truth"
  end.

(** ** Methods and functions *)

Definition hex_digit (n : N) : N := (if N.ltb n 10 then 48 + n else 87 + n)%N.
Fixpoint digits (fuel : nat) (n : N) (acc : list N) : list N :=
  match fuel with
  | O => acc
  | S f => let acc' := (48 + N.modulo n 10)%N :: acc in if N.ltb n 10 then acc' else digits f (N.div n 10) acc'
  end.
Definition decimal (n : N) : list N := digits (S (N.to_nat (N.size n))) n [].
Definition value_name (l : list (string * Z)) (z : Z) : option string :=
  match find (fun p => Z.eqb (snd p) z) l with Some (n, _) => Some n | None => None end.
(** prettyPrint().  Octet strings: as text when every octet is printable ASCII, else in
    hexadecimal (OctetString.prettyPrint); bit strings as a number (SizedInteger). *)
Definition pretty (a : tv) : r tv :=
  match a with
  | UObj (TPrim _ _) (Some (VOcts b)) =>
      OK (UText (if forallb (fun c => N.leb 32 c && N.leb c 126)%N b then b
                 else 48%N :: 120%N :: flat_map (fun c => [hex_digit (N.div c 16); hex_digit (N.modulo c 16)]) b))
  | UObj (TPrim _ _) (Some (VText t)) => OK (UText t)
  | UObj (TPrim _ m) (Some (VInt z)) =>
      match value_name (nvals m) z with
      | Some n => OK (UText (chars n))
      | None => OK (UText (if Z.ltb z 0 then 45%N :: decimal (Z.to_N (- z)) else decimal (Z.to_N z)))
      end
  | UObj (TPrim _ _) (Some (VBool b)) => OK (UText (chars (if b then "True" else "False")))
  | UObj (TPrim _ _) (Some (VOid l)) =>
      OK (UText (match map decimal l with [] => [] | d :: ds => d ++ flat_map (fun x => 46%N :: x) ds end))
  | UObj (TPrim _ _) (Some VNull) => OK (UText [])
  | UObj (TPrim _ _) (Some (VBits l)) => OK (UText (decimal (bits_val l 0)))
  | UObj (TSeq _ _ _ | TOf _ _ _ | TChoice _ _) _ => OK UOpaque
  | _ => Stuck "prettyPrint"
  end.
(** BitString.asOctets: the number, in as many octets as the bits need. *)
Definition bit_octets (l : list bool) : bytes :=
  let p := repeat false (Nat.modulo (8 - Nat.modulo (List.length l) 8) 8) ++ l in pack (List.length p) p.
Definition unhex (c : N) : option N :=
  if (N.leb 48 c && N.leb c 57)%N then Some (c - 48)%N
  else if (N.leb 97 c && N.leb c 102)%N then Some (c - 87)%N
  else if (N.leb 65 c && N.leb c 70)%N then Some (c - 55)%N else None.
Fixpoint from_hex (l : list N) : option bytes :=
  match l with
  | [] => Some []
  | a :: b :: l' => match unhex a, unhex b, from_hex l' with Some x, Some y, Some s => Some (16 * x + y :: s)%N | _, _, _ => None end
  | _ => None
  end.
Definition octets_of (a : tv) : r bytes :=
  match a with
  | UBytes b => OK b
  | UObj (TPrim _ _) (Some (VOcts b)) => OK b
  | _ => Stuck "octets"
  end.
Definition size (a : tv) : r Z :=
  match a with
  | UText t => OK (Z.of_nat (List.length t))
  | UBytes t => OK (Z.of_nat (List.length t))
  | UList t => OK (Z.of_nat (List.length t))
  | UDict t => OK (Z.of_nat (List.length t))
  | UObj _ (Some (VOcts t)) => OK (Z.of_nat (List.length t))
  | UObj _ (Some (VText t)) => OK (Z.of_nat (List.length t))
  | UObj _ (Some (VBits t)) => OK (Z.of_nat (List.length t))
  | UObj _ (Some (VOid t)) => OK (Z.of_nat (List.length t))
  | UObj _ (Some (VList t)) => OK (Z.of_nat (List.length t))
  | _ => Stuck "len"
  end.
Definition number (a : tv) : option Z :=
  match a with UInt z => Some z | UBool b => Some (if b then 1 else 0)%Z | UObj _ (Some (VInt z)) => Some z | _ => None end.
Definition do_one (f : string) (a : tv) : r tv :=
  if String.eqb f "encode" then
    match a with
    | UObj t (Some v) => match encode t v with Ok b => OK (UBytes b) | Err => Raise "PyAsn1Error" | _ => Stuck "encode" end
    | _ => Stuck "encode"
    end
  else if String.eqb f "base64" then
    match a with
    | UText t => match Pem.readBase64fromText t with Base64.Ok b => OK (UBytes b) | Base64.Err _ => Raise "binascii.Error" end
    | _ => Stuck "readBase64fromText"
    end
  else if String.eqb f "len" then do z <- size a; OK (UInt z)
  else if String.eqb f "count" then do l <- elements a; OK (UInt (Z.of_nat (List.length l)))
  else if String.eqb f "prettyPrint" then pretty a
  else if (String.eqb f "hasValue" || String.eqb f "isValue")%bool then
    match a with UObj _ o => OK (UBool (match o with Some _ => true | None => false end)) | _ => Stuck f end
  else if String.eqb f "getName" then
    match a with
    | UObj (TChoice _ fs) (Some (VAlt i _)) => match nth_error fs i with Some f => OK (UText (chars (fname f))) | None => Stuck f end
    | _ => Stuck f
    end
  else if (String.eqb f "keys" || String.eqb f "copy")%bool then match a with UDict l => OK a | _ => Stuck f end
  else if String.eqb f "asOctets" then
    match a with
    | UObj _ (Some (VBits l)) => OK (UBytes (bit_octets l))
    | UObj _ (Some (VOcts b)) => OK (UBytes b)
    | _ => Stuck f
    end
  else if String.eqb f "str2octs" then
    match a with UText t => if forallb (fun c => N.ltb c 256) t then OK (UBytes t) else Stuck f | _ => Stuck f end
  else if String.eqb f "str" then
    match a with UText _ => OK a | UObj (TPrim _ _) (Some (VText t)) => OK (UText t) | _ => Stuck f end
  else if String.eqb f "lower" then
    match a with
    | UText t => if forallb (fun c => N.ltb c 128) t then OK (UText (map (fun c => if (N.leb 65 c && N.leb c 90)%N then (c + 32)%N else c) t)) else Stuck f
    | _ => Stuck f
    end
  else if String.eqb f "ints2octs" then
    match a with
    | UList l => match all_some (fun x => match x with UInt z => if (Z.leb 0 z && Z.ltb z 256)%Z then Some (Z.to_N z) else None | _ => None end) l with
                 | Some b => OK (UBytes b) | None => Stuck f end
    | _ => Stuck f
    end
  else Stuck f.

(** ** Expressions *)

(** A value of the module evaluator. *)
Fixpoint from_py (W : world) (p : pyval) : r tv :=
  match p with
  | PNone => OK UNone
  | Eval.PInt z => OK (UInt z)
  | PBool b => OK (UBool b)
  | PStr s => OK (UText (chars s))
  | PBytes b => OK (UBytes b)
  | PTuple l | PList l =>
      do l' <- (fix all (l : list pyval) := match l with [] => OK [] | x :: l' => do a <- from_py W x; do b <- all l'; OK (a :: b) end) l; OK (UList l')
  | PDict d => OK (UDict (map (fun e : key * (asn1 * option aval) =>
                                 (match fst e with KeyOid a => UObj (TPrim KOid (mkM [] (CInter []) [] (CInter []))) (Some (VOid a)) | KeyInt z => UInt z end,
                                  UObj (fst (snd e)) (snd (snd e)))) (rev (Import.registry W d))))
  | PInst t v => OK (UObj t v)
  | _ => Stuck "a value of no test"
  end.
Definition to_py (a : tv) : r pyval :=
  match a with
  | UNone => OK PNone
  | UInt z => OK (Eval.PInt z)
  | UBool b => OK (PBool b)
  | UText t => if forallb (fun c => N.ltb c 256) t then OK (PStr (text_of t)) else Stuck "text"
  | UBytes b => OK (PBytes b)
  | UObj t v => OK (PInst t v)
  | _ => Stuck "a value of no module"
  end.

Definition locals := list (string * tv).

Fixpoint eval (n : nat) (W : world) (L : locals) (e : tx) : r tv :=
  match n with
  | O => Stuck "fuel"
  | S n =>
    match e with
    | XVar x => Eval.of_opt "NameError" (lookup L x)
    | XPy m e => do p <- eval_in W m e; from_py W p
    | XHex e h =>
        do a <- eval n W L e;
        match a, from_hex (chars h) with
        | UObj (TPrim k m) None, Some b => do p <- mk_prim k m (Some (PBytes b)); from_py W p
        | _, _ => Stuck "hexValue"
        end
    | XWith e v =>
        do a <- eval n W L e; do x <- eval n W L v; do p <- to_py x;
        match a with
        | UObj (TPrim k m) None => do p' <- mk_prim k m (Some p); from_py W p'
        | _ => Stuck "value"
        end
    | XText s => OK (UText (chars s))
    | XCodes l => OK (UText l)
    | XInt z => OK (UInt z)
    | XBool b => OK (UBool b)
    | XNone => OK UNone
    | XIdx a i => do x <- eval n W L a; do y <- eval n W L i; index x y
    | XSlice a lo hi => do x <- eval n W L a; slice x lo hi
    | XDo f a => do x <- eval n W L a; do_one f x
    | XHas a x =>
        do c <- eval n W L a;
        match c with
        | UObj (TChoice _ fs) (Some (VAlt i _)) =>
            match find_field fs x 0 with Some (j, _) => OK (UBool (Nat.eqb i j)) | None => Raise "KeyError" end
        | _ => do v <- index c (UText (chars x)); do_one "hasValue" v
        end
    | XNot a => do x <- eval n W L a; do t <- truthy x; OK (UBool (negb t))
    | XOp o a b =>
        do x <- eval n W L a;
        if String.eqb o "and" then do t <- truthy x; if t then eval n W L b else OK x
        else if String.eqb o "or" then do t <- truthy x; if t then OK x else eval n W L b
        else do y <- eval n W L b;
        if String.eqb o "==" then do t <- equal x y; OK (UBool t)
        else if String.eqb o "in" then do t <- member x y; OK (UBool t)
        else match number x, number y with
             | Some p, Some q =>
                 if String.eqb o "+" then OK (UInt (p + q))
                 else if String.eqb o "<" then OK (UBool (Z.ltb p q))
                 else if (String.eqb o "%" && negb (Z.eqb q 0))%bool then OK (UInt (Z.modulo p q))
                 else Stuck o
             | _, _ => Stuck o
             end
    | XDict l =>
        (fix all (l : list (tx * tx)) (acc : list (tv * tv)) :=
           match l with
           | [] => OK (UDict acc)
           | (k, v) :: l' => do k' <- eval n W L k; do v' <- eval n W L v; all l' ((k', v') :: acc)
           end) l []
    | XList l =>
        do l' <- (fix all (l : list tx) := match l with [] => OK [] | x :: l' => do a <- eval n W L x; do b <- all l'; OK (a :: b) end) l; OK (UList l')
    | XLam x b => OK (UFun x b)
    | XApp f a =>
        do g <- eval n W L f; do y <- eval n W L a;
        match g with UFun x b => eval n W ((x, y) :: L) b | _ => Stuck "call" end
    end
  end.

(** ** Statements *)

(** decode(…, openTypes=map): the map comes before the registry of the component
    (pyasn1 0.4.8, ber/decoder.py, UniversalConstructedTypeDecoder.valueDecoder:
    openTypes[governingValue], and on KeyError namedType.openType[governingValue]). *)
Definition with_map (its : items) (R : Open.registry) : Open.registry :=
  fun d k => match item_get its k with Some (t, _) => Some t | None => R d k end.
(** A dictionary as the map openTypes (dictionaries here have the later entries first). *)
Definition map_items (a : tv) : r items :=
  match a with
  | UDict l =>
      match all_some (fun e : tv * tv =>
          match (match fst e with UObj _ (Some (VOid k)) => Some (KeyOid k) | UObj _ (Some (VInt z)) => Some (KeyInt z) | UInt z => Some (KeyInt z) | _ => None end), snd e with
          | Some k, UObj t v => Some (k, (t, v))
          | _, _ => None
          end) l with
      | Some its => OK (rev its)
      | None => Stuck "openTypes"
      end
  | _ => Stuck "openTypes"
  end.
Definition decoded (W : world) (s : bytes) (t : asn1) (open : bool) (its : items) : r (tv * tv) :=
  match (if open then decode_open (with_map its (reg_of W)) t s else decode t s) with
  | Ok (v, rest) => OK (held t v, UBytes rest)
  | Err => Raise "PyAsn1Error"
  | _ => Stuck "decode"
  end.

(** The state: local variables, and the number of assertions made so far.  Variables are
    never unbound, so that a binding in front of the others is an assignment; the values of
    this language are never changed in place (the translator admits update and append only
    where the variable holds the one reference). *)
Definition state := (locals * N)%type.
Definition bound (S : state) (x : string) (v : tv) : state := ((x, v) :: fst S, snd S).
Fixpoint exec (n : nat) (W : world) (S : state) (s : ts) : r state :=
  match n with
  | O => Stuck "fuel"
  | S n =>
    let body := fix all (l : list ts) (S : state) : r state := match l with [] => OK S | s :: l' => do S' <- exec n W S s; all l' S' end in
    let L := fst S in
    match s with
    | TSet x e => do v <- eval n W L e; OK (bound S x v)
    | TDecode x y s t open more =>
        do a <- eval n W L s; do b <- octets_of a; do t' <- eval n W L t;
        do its <- match more with None => OK [] | Some e => do d <- eval n W L e; map_items d end;
        match t' with
        | UObj t'' _ => do (v, rest) <- decoded W b t'' open its; OK (bound (bound S x v) y rest)
        | _ => Stuck "asn1Spec"
        end
    | TAssert e => do v <- eval n W L e; do t <- truthy v; if t then OK (L, N.succ (snd S)) else Raise "AssertionError"
    | TRaises e => match eval n W L e with
                   | Raise x => if String.eqb x "PyAsn1Error" then OK (L, N.succ (snd S)) else Raise x
                   | OK _ => Raise "AssertionError"
                   | Stuck x => Stuck x
                   end
    | TExpr e => do _ <- eval n W L e; OK S
    | TFor x e b =>
        do a <- eval n W L e; do l <- elements a;
        (fix loop (l : list tv) (S : state) := match l with [] => OK S | v :: l' => do S' <- body b (bound S x v); loop l' S' end) l S
    | TCall x args b e =>
        do own <- (fix all (l : list (string * tx)) := match l with [] => OK [] | (y, a) :: l' => do v <- eval n W L a; do o <- all l'; OK ((y, v) :: o) end) args;
        do S' <- body b (own ++ L, snd S); do v <- eval n W (fst S') e; OK ((x, v) :: L, snd S')
    | TIf e a b => do v <- eval n W L e; do t <- truthy v; if t then body a S else body b S
    | TWhile e b => do v <- eval n W L e; do t <- truthy v; if t then do S' <- body b S; exec n W S' s else OK S
    | TUpdate x e =>
        do d <- Eval.of_opt "NameError" (lookup L x); do v <- eval n W L e;
        match d, v with UDict l, UDict l' => OK (bound S x (UDict (l' ++ l))) | _, _ => Stuck "update" end
    | TAppend x e =>
        do d <- Eval.of_opt "NameError" (lookup L x); do v <- eval n W L e;
        match d with UList l => OK (bound S x (UList (l ++ [v]))) | _ => Stuck "append" end
    | TPut x i e =>
        do d <- Eval.of_opt "NameError" (lookup L x); do i' <- eval n W L i; do v <- eval n W L e; do ip <- to_py i'; do vp <- to_py v;
        match d with UObj t o => do a <- set_item t o ip vp; OK (bound S x (UObj t (Some a))) | _ => Stuck "item assignment" end
    end
  end.
Fixpoint run_all (W : world) (l : list ts) (S : state) : r state :=
  match l with [] => OK S | s :: l' => do S' <- exec 100 W S s; run_all W l' S' end.

(** A test method in a fresh interpreter: the imports of its file, then its body.  The
    result is the number of assertions made. *)
Definition run_in (w : r world) (p : program) : r N := do W <- w; do Q <- run_all W (p_body p) ([], 0%N); OK (snd Q).
Definition run (p : program) : r N := run_in (session (p_imports p)) p.

End codec.
