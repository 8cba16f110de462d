(** Filling in objects of constructed types: setComponentByPosition and
    getComponentByPosition of pyasn1.type.univ (0.4.8), as tools/snmpget.py uses them.
    The objects reached through getComponentByPosition are changed in place; every one of
    them is a fresh copy with one owner, so that a change is a change at a path from the
    root. *)
From Coq Require Import List String ZArith NArith Bool.
From Verif Require Import Py.Syntax Asn1.Types Py.Eval Asn1.Bytes Asn1.Der.
Import ListNotations.
Open Scope string_scope.
Open Scope list_scope.

(** A simple object (with its value, if it has one), and the constructed ones with the
    components set so far. *)
Inductive obj :=
| Simple (t : asn1) (v : option aval)
| Fields (fs : list field) (slots : list (option obj))
| Elements (elt : option asn1) (xs : list obj)
| Chosen (fs : list field) (cur : option (nat * obj)).

(** A copy of a schema object: simple ones keep their value (univ.Null() always has one). *)
Definition fresh (t : asn1) (dv : option aval) : obj :=
  match t with
  | TPrim KNull _ => Simple t (Some VNull)
  | TPrim _ _ => Simple t dv
  | TSeq _ _ fs => Fields fs (map (fun _ => None) fs)
  | TOf _ _ e => Elements e []
  | TChoice _ fs => Chosen fs None
  end.

(** The Python values given: numbers and texts (code points). *)
Inductive arg := Num (z : Z) | Txt (s : list N).

(** int(s): texts of decimal digits (up to 4300: sys.set_int_max_str_digits) are modelled.
    White space, signs, underscores and digits of other scripts are not; of the other
    texts, those with a printable ASCII character that no number has raise ValueError. *)
Definition is_digit (c : N) : bool := (N.leb 48 c && N.leb c 57)%N.
Definition never_in_int (c : N) : bool := (N.leb 33 c && N.leb c 126 && negb (is_digit c) && negb (N.eqb c 43) && negb (N.eqb c 45) && negb (N.eqb c 95))%N.
Definition int_of (s : list N) : r N :=
  if forallb is_digit s && negb (Nat.eqb (List.length s) 0) && Nat.leb (List.length s) 4300 then OK (fold_left (fun a c => a * 10 + (c - 48))%N s 0%N)
  else if existsb never_in_int s then Raise "ValueError" else Stuck "int".
Fixpoint ints (l : list (list N)) : r (list N) :=
  match l with
  | [] => OK []
  | p :: l' => do n <- int_of p; do ns <- ints l'; OK (n :: ns)
  end.
(** ObjectIdentifier.prettyIn on a text. *)
Definition oid_of (s : list N) : r (list N) :=
  if existsb (N.eqb 45) s then Raise "PyAsn1Error"
  else ints (filter (fun p => negb (Nat.eqb (List.length p) 0)) (split_on 46%N s)).
(** prettyIn, then the constraint (SimpleAsn1Type.clone(value=...)).  OctetString: the text in
    iso-8859-1. *)
Definition from_arg (k : prim) (m : meta) (a : arg) : r aval :=
  do v <- match k, a with
          | (KInt | KEnum), Num z => OK (VInt z)
          | KOcts, Txt s => if forallb (fun c => N.ltb c 256) s then OK (VOcts s) else Raise "PyAsn1UnicodeEncodeError"
          | KOid, Txt s => do a <- oid_of s; OK (VOid a)
          | _, _ => Stuck "value"
          end;
  if csat [] (spec m) v then OK v else Raise "ValueConstraintError".

(** The object that goes into a component: a copy of the schema object, or that with a value. *)
Definition put_in (t : asn1) (dv : option aval) (a : option arg) : r obj :=
  match a with
  | None => OK (fresh t dv)
  | Some x => match t with
              | TPrim k m => do v <- from_arg k m x; OK (Simple t (Some v))
              | _ => Raise "can cast only scalar value"
              end
  end.
Fixpoint replace {A} (n : nat) (x : A) (l : list A) : list A :=
  match l, n with
  | [], _ => []
  | _ :: l', O => x :: l'
  | y :: l', S n' => y :: replace n' x l'
  end.
(** o.setComponentByPosition(i, a).  Elements are added at the end only. *)
Definition set_here (i : nat) (a : option arg) (o : obj) : r obj :=
  match o with
  | Fields fs sl =>
      match nth_error fs i with
      | Some f => do c <- put_in (ftype f) (fdef f) a; OK (Fields fs (replace i (Some c) sl))
      | None => Raise "component index out of range"
      end
  | Chosen fs _ =>
      match nth_error fs i with
      | Some f => do c <- put_in (ftype f) (fdef f) a; OK (Chosen fs (Some (i, c)))
      | None => Raise "component index out of range"
      end
  | Elements (Some t) xs =>
      if Nat.eqb i (List.length xs) then do c <- put_in t None a; OK (Elements (Some t) (xs ++ [c])) else Stuck "element"
  | _ => Stuck "setComponentByPosition"
  end.
(** The same on the object at a path of positions. *)
Fixpoint set_at (path : list nat) (i : nat) (a : option arg) (o : obj) : r obj :=
  match path with
  | [] => set_here i a o
  | j :: path' =>
      match o with
      | Fields fs sl => match nth_error sl j with
                        | Some (Some c) => do c' <- set_at path' i a c; OK (Fields fs (replace j (Some c') sl))
                        | _ => Stuck "getComponentByPosition" end
      | Chosen fs (Some (j', c)) => if Nat.eqb j j' then do c' <- set_at path' i a c; OK (Chosen fs (Some (j', c'))) else Stuck "getComponentByPosition"
      | Elements e xs => match nth_error xs j with
                         | Some c => do c' <- set_at path' i a c; OK (Elements e (replace j c' xs))
                         | None => Stuck "getComponentByPosition" end
      | _ => Stuck "getComponentByPosition"
      end
  end.
(** One call: path, position, value. *)
Definition step := (list nat * nat * option arg)%type.
Fixpoint run (ss : list step) (o : obj) : r obj :=
  match ss with
  | [] => OK o
  | (p, i, a) :: ss' => do o' <- set_at p i a o; run ss' o'
  end.

(** The value of an object, when all of it is there. *)
Fixpoint filled (o : obj) : option aval :=
  match o with
  | Simple _ v => v
  | Fields _ sl =>
      option_map VSeq
        ((fix go (sl : list (option obj)) : option (list (option aval)) :=
            match sl with
            | [] => Some []
            | None :: sl' => option_map (fun vs => None :: vs) (go sl')
            | Some c :: sl' => match filled c, go sl' with Some v, Some vs => Some (Some v :: vs) | _, _ => None end
            end) sl)
  | Elements _ xs =>
      option_map VList
        ((fix go (xs : list obj) : option (list aval) :=
            match xs with
            | [] => Some []
            | c :: xs' => match filled c, go xs' with Some v, Some vs => Some (v :: vs) | _, _ => None end
            end) xs)
  | Chosen _ None => None
  | Chosen _ (Some (i, c)) => option_map (VAlt i) (filled c)
  end.

(** ber.encoder.encode: for types without SET, SET OF, BOOLEAN, times, OPTIONAL and DEFAULT
    it does what the DER encoder does. *)
Fixpoint ber_as_der (t : asn1) : bool :=
  let fix all (fs : list field) : bool :=
    match fs with
    | [] => true
    | Fld _ p t' _ _ :: fs' => match p with Req => ber_as_der t' | _ => false end && all fs'
    end in
  match t with
  | TPrim (KBool | KStr SGenTime | KStr SUTCTime) _ => false
  | TPrim _ _ => true
  | TSeq isset _ fs => negb isset && all fs
  | TOf isset _ e => negb isset && match e with Some t' => ber_as_der t' | None => false end
  | TChoice _ fs => all fs
  end.
Definition ber_encode (t : asn1) (v : aval) : res bytes := if ber_as_der t then encode t v else Unm.
