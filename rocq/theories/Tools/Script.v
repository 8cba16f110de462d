(** Running the programs of Tools/ScriptLang.v: pyasn1_modules/pem.py and the dump tools.

    What the programs call is modelled as in the rest of the model: file objects, str.strip
    and binascii as in Pem/, the codec as in Asn1/Der.v, the modules as in Load/.  The text
    that prettyPrint() returns is not computed; what is printed is the object.  A program that
    goes outside the model ends in [Unmod]. *)
From Coq Require Import List String Ascii ZArith NArith Bool.
From Verif Require Pem.Text Pem.Base64 Pem.Pem.
From Verif Require Import Py.Syntax Asn1.Types Py.Eval Asn1.Bytes Asn1.Der Load.Import Load.Schemas
  Tools.Layers Tools.Programs Gen.Scripts.
From Verif Require Tools.ScriptLang.
Import ListNotations.
Import Tools.ScriptLang.
Open Scope string_scope.
Open Scope list_scope.

(** ** Values *)

(** [KObj t v]: a pyasn1 object of type [t] ([None]: without a value).  [KClass m x]: a class of
    module [m].  [KName p]: what the dotted name [p] of the standard library, of pyasn1 or of
    the built-ins refers to.  [KPem f]: a function of pem.py.  [KBound v a]: the method [a] of [v].
    [KFile]: sys.stdin.  [KPretty t v]: what prettyPrint() returns.  [KFormat f v]: f % v. *)
Inductive pv :=
| KNone | KBool (b : bool) | KInt (z : Z) | KText (t : Text.text) | KBytes (b : bytes)
| KTuple (l : list pv) | KList (l : list pv) | KDict (l : list (pv * pv))
| KObj (t : asn1) (v : option aval) | KClass (m x : string) | KModule (m : string)
| KName (p : string) | KPem (f : string) | KBound (v : pv) (a : string) | KFile
| KPretty (t : asn1) (v : aval) | KFormat (f : Text.text) (v : pv).

(** What is left of standard input, and what was printed. *)
Record io := mkIO { input : Text.text; printed : list pv }.
Inductive pyexn := Binascii (e : Base64.exn) | KeyError | AssertionError | PyAsn1Error.
(** A value; an exception; sys.exit; outside the model; more iterations are needed. *)
Inductive out (A : Type) := Val (a : A) (s : io) | Throw (e : pyexn) (s : io) | Quit (z : Z) (s : io) | Unmod (s : io) | More.
Arguments Val {A}. Arguments Throw {A}. Arguments Quit {A}. Arguments Unmod {A}. Arguments More {A}.
Definition M (A : Type) := io -> out A.
Definition ret {A} (a : A) : M A := fun s => Val a s.
Definition bind {A B} (x : M A) (k : A -> M B) : M B := fun s =>
  match x s with
  | Val a s' => k a s'
  | Throw e s' => Throw e s'
  | Quit z s' => Quit z s'
  | Unmod s' => Unmod s'
  | More => More
  end.
Definition throw {A} (e : pyexn) : M A := fun s => Throw e s.
Definition unmod {A} : M A := fun s => Unmod s.
Notation "'let*' x := e 'in' k" := (bind e (fun x => k)) (at level 200, x pattern, right associativity).
Definition of_some {A} (o : option A) : M A := match o with Some a => ret a | None => unmod end.
Fixpoint mapM {A B} (f : A -> M B) (l : list A) : M (list B) :=
  match l with
  | [] => ret []
  | a :: l' => let* b := f a in let* bs := mapM f l' in ret (b :: bs)
  end.

Section codec.
Context {Cdc : codec}.

(** ** Operators *)

Definition nonempty {A} (l : list A) : bool := match l with [] => false | _ => true end.
(** bool(v) *)
Definition truth (v : pv) : option bool :=
  match v with
  | KNone => Some false
  | KBool b => Some b
  | KInt z => Some (negb (Z.eqb z 0))
  | KText t => Some (nonempty t)
  | KBytes b => Some (nonempty b)
  | KTuple l | KList l => Some (nonempty l)
  | KDict l => Some (nonempty l)
  | KObj _ (Some (VOid a)) => Some (nonempty a)
  | KObj _ (Some (VOcts b)) => Some (nonempty b)
  | _ => None
  end.
(** A tuple and the arcs of an object identifier (which hash alike). *)
Fixpoint tuple_arcs (l : list pv) (a : list N) : option bool :=
  match l, a with
  | [], [] => Some true
  | KInt z :: l', n :: a' => if Z.eqb z (Z.of_N n) then tuple_arcs l' a' else Some false
  | [], _ :: _ | KInt _ :: _, [] => Some false
  | _, _ => None
  end.
(** a == b *)
Definition equals (a b : pv) : option bool :=
  match a, b with
  | KNone, KNone => Some true
  | KInt x, KInt y => Some (Z.eqb x y)
  | KText x, KText y => Some (Text.text_eqb x y)
  | KBytes x, KBytes y => Some (list_eqb N.eqb x y)
  | KBytes x, KObj _ (Some (VOcts y)) => Some (list_eqb N.eqb x y)
  | KObj _ (Some (VOid x)), KObj _ (Some (VOid y)) => Some (oid_eqb x y)
  | KTuple l, KObj _ (Some (VOid a)) => tuple_arcs l a
  | _, _ => None
  end.
(** d.get(k): the last item with the key, as items of a display or of dict() override. *)
Fixpoint dict_at (l : list (pv * pv)) (k : pv) : option (option pv) :=
  match l with
  | [] => Some None
  | (k', v) :: l' =>
      match dict_at l' k with
      | Some (Some w) => Some (Some w)
      | Some None => match equals k' k with Some true => Some (Some v) | Some false => Some None | None => None end
      | None => None
      end
  end.
Definition compare (o : string) (a b : pv) : option bool :=
  if String.eqb o "==" then equals a b
  else if String.eqb o "!=" then option_map negb (equals a b)
  else if String.eqb o "<=" then match a, b with KInt x, KInt y => Some (Z.leb x y) | _, _ => None end
  else if String.eqb o "in" then
    match b with
    | KDict l => match dict_at l a with Some (Some _) => Some true | Some None => Some false | None => None end
    | _ => None
    end
  else None.
(** o['n'], o.getComponentByName('n').  The decoder has filled in the defaults, so that an
    absent component is an object without a value. *)
Definition member (t : asn1) (v : option aval) (n : string) : option pv :=
  match v, component_type t n with
  | Some v, Some t' => match component t v n with Some o => Some (KObj t' o) | None => None end
  | _, _ => None
  end.
Definition plain (t : Text.text) : string := string_of_list_ascii (map ascii_of_N t).
(** e[i] *)
Definition subscript (v i : pv) : M pv :=
  match v, i with
  | KTuple l, KInt z | KList l, KInt z => if Z.ltb z 0 then unmod else of_some (nth_error l (Z.to_nat z))
  | KDict l, _ => let* o := of_some (dict_at l i) in match o with Some v => ret v | None => throw KeyError end
  | KObj t o, KText n => of_some (member t o (plain n))
  | _, _ => unmod
  end.
(** e[:-n], n > 0 *)
Definition upto (v n : pv) : M pv :=
  match v, n with
  | KBytes b, KInt z => if Z.ltb z 0 then ret (KBytes (firstn (List.length b - Z.to_nat (- z)) b)) else unmod
  | _, _ => unmod
  end.

(** ** Library *)

(** str.encode() *)
Definition utf8_char (c : N) : bytes :=
  if N.ltb c 128 then [c]
  else if N.ltb c 2048 then [192 + c / 64; 128 + c mod 64]%N
  else if N.ltb c 65536 then [224 + c / 4096; 128 + (c / 64) mod 64; 128 + c mod 64]%N
  else [240 + c / 262144; 128 + (c / 4096) mod 64; 128 + (c / 64) mod 64; 128 + c mod 64]%N.
Definition utf8 (t : Text.text) : bytes := flat_map utf8_char t.
Definition lift {A} (x : Base64.res A) : M A := match x with Base64.Ok a => ret a | Base64.Err e => throw (Binascii e) end.
Definition of_res {A} (x : res A) : M A := match x with Ok a => ret a | Unm => unmod | _ => throw PyAsn1Error end.
(** The octets that decoder.decode is given: bytes, or an object that holds octets; an object
    without a value raises. *)
Definition substrate_of (v : pv) : M bytes :=
  match v with
  | KBytes b | KObj _ (Some (VOcts b)) => ret b
  | KObj _ None => throw PyAsn1Error
  | _ => unmod
  end.
Fixpoint number (z : Z) (l : list pv) : list pv := match l with [] => [] | v :: l' => KTuple [KInt z; v] :: number (z + 1) l' end.
Fixpoint items_of (l : list pv) : option (list (pv * pv)) :=
  match l with
  | [] => Some []
  | KTuple [k; v] :: l' => match items_of l' with Some i => Some ((k, v) :: i) | None => None end
  | _ => None
  end.
Fixpoint join (l : list pv) : option bytes :=
  match l with
  | [] => Some []
  | KBytes b :: l' => match join l' with Some c => Some (b ++ c) | None => None end
  | _ => None
  end.
Definition builtins : list string := ["len"; "dict"; "enumerate"; "print"].
(** p(args, **kw) *)
Definition builtin (p : string) (args : list pv) (kw : list (string * pv)) : M pv :=
  match args, kw with
  | [v], [] =>
      if String.eqb p "len" then
        match v with
        | KList l | KTuple l => ret (KInt (Z.of_nat (List.length l)))
        | KBytes b => ret (KInt (Z.of_nat (List.length b)))
        | _ => unmod
        end
      else if String.eqb p "print" then fun s => Val KNone (mkIO (input s) (printed s ++ [v]))
      else if String.eqb p "dict" then match v with KList l => let* i := of_some (items_of l) in ret (KDict i) | _ => unmod end
      else if String.eqb p "enumerate" then match v with KList l => ret (KList (number 0 l)) | _ => unmod end
      else if String.eqb p "sys.exit" then match v with KInt z => fun s => Quit z s | _ => unmod end
      else if String.eqb p "base64.b64decode" then
        match v with KBytes b => let* o := lift (Base64.a2b 0 0 0 b) in ret (KBytes o) | _ => unmod end
      else if String.eqb p "pyasn1.codec.der.encoder.encode" then
        match v with KObj t (Some x) => let* b := of_res (encode t x) in ret (KBytes b) | _ => unmod end
      else if String.eqb p "pyasn1.debug.Debug" then ret (KName "a debug printer")
      else if String.eqb p "pyasn1.debug.setLogger" then ret KNone
      else unmod
  | [v], [(k, KObj t _)] =>
      if String.eqb p "pyasn1.codec.der.decoder.decode" then
        if String.eqb k "asn1Spec" then
          let* b := substrate_of v in let* (x, rest) := of_res (decode t b) in ret (KTuple [KObj t (Some x); KBytes rest])
        else unmod
      else unmod
  | _, _ => unmod
  end.
(** v.a(args) *)
Definition method (v : pv) (a : string) (args : list pv) : M pv :=
  match v, args with
  | KFile, [] =>
      if String.eqb a "readline" then fun s => let (l, f) := Text.readline (input s) in Val (KText l) (mkIO f (printed s))
      else if String.eqb a "read" then fun s => Val (KText (input s)) (mkIO [] (printed s))
      else unmod
  | KText t, [] =>
      if String.eqb a "strip" then ret (KText (Text.strip t))
      else if String.eqb a "encode" then if existsb Base64.is_surrogate t then throw (Binascii Base64.UnicodeEncode) else ret (KBytes (utf8 t))
      else unmod
  | KBytes [], [KList l] => if String.eqb a "join" then let* b := of_some (join l) in ret (KBytes b) else unmod
  | KObj t (Some x), [] => if String.eqb a "prettyPrint" then ret (KPretty t x) else unmod
  | KObj t o, [KText n] => if String.eqb a "getComponentByName" then of_some (member t o (plain n)) else unmod
  | _, _ => unmod
  end.

Section run.
(** The modules loaded, sys.argv, the functions of pem.py, the number of iterations allowed. *)
Variable W : world.
Variable argv : list Text.text.
Variable pem : string -> list pv -> list (string * pv) -> M pv.
Variable n : nat.

Definition attribute_of (v : pv) (a : string) : M pv :=
  match v with
  | KModule m =>
      if String.eqb m "pem" then ret (KPem a)
      else match loaded W m with
           | Some R => match lookup (m_ns R) a with
                       | Some (PClass _) => ret (KClass m a)
                       | Some (PInst t o) => ret (KObj t o)
                       | _ => unmod
                       end
           | None => unmod
           end
  | KName p =>
      let q := (p ++ "." ++ a)%string in
      if String.eqb q "sys.argv" then ret (KList (map KText argv))
      else if String.eqb q "sys.stdin" then ret KFile
      else if String.eqb q "sys.version_info" then ret (KTuple [KInt 3])
      else ret (KName q)
  | KText _ | KBytes _ | KObj _ _ | KFile => ret (KBound v a)
  | _ => unmod
  end.
Definition calls (f : pv) (args : list pv) (kw : list (string * pv)) : M pv :=
  match f with
  | KPem g => pem g args kw
  | KName p => builtin p args kw
  | KBound v a => match kw with [] => method v a args | _ => unmod end
  | KClass m x => match args, kw with [], [] => let* (t, o) := of_some (schema W m x) in ret (KObj t o) | _, _ => unmod end
  | _ => unmod
  end.

Definition vars := list (string * pv).
Fixpoint var (E : vars) (x : string) : option pv :=
  match E with [] => None | (y, v) :: E' => if String.eqb x y then Some v else var E' x end.
Fixpoint put (E : vars) (x : string) (v : pv) : vars :=
  match E with
  | [] => [(x, v)]
  | (y, w) :: E' => if String.eqb x y then (y, v) :: E' else (y, w) :: put E' x v
  end.
(** Locals, globals, built-ins. *)
Definition name (G E : vars) (x : string) : option pv :=
  match var E x with
  | Some v => Some v
  | None => match var G x with
            | Some v => Some v
            | None => if existsb (String.eqb x) builtins then Some (KName x) else None
            end
  end.

Fixpoint eval (G E : vars) (e : px) {struct e} : M pv :=
  match e with
  | XName x => of_some (name G E x)
  | XInt z => ret (KInt z)
  | XStr s => ret (KText (chars s))
  | XNone => ret KNone
  | XTrue => ret (KBool true)
  | XTuple l => let* vs := (fix all l := match l with [] => ret [] | e :: l' => let* v := eval G E e in let* vs := all l' in ret (v :: vs) end) l in
                ret (KTuple vs)
  | XList l => let* vs := (fix all l := match l with [] => ret [] | e :: l' => let* v := eval G E e in let* vs := all l' in ret (v :: vs) end) l in
               ret (KList vs)
  | XDict l => let* vs := (fix all l := match l with
                 | [] => ret []
                 | (k, e) :: l' => let* a := eval G E k in let* v := eval G E e in let* vs := all l' in ret ((a, v) :: vs)
                 end) l in ret (KDict vs)
  | XAttr e a => let* v := eval G E e in attribute_of v a
  | XCall f args kw =>
      let* g := eval G E f in
      let* vs := (fix all l := match l with [] => ret [] | e :: l' => let* v := eval G E e in let* vs := all l' in ret (v :: vs) end) args in
      let* ks := (fix all l := match l with
                   | [] => ret []
                   | (k, e) :: l' => let* v := eval G E e in let* vs := all l' in ret ((k, v) :: vs)
                   end) kw in
      calls g vs ks
  | XSub e i => let* v := eval G E e in let* j := eval G E i in subscript v j
  | XUpto e i => let* v := eval G E e in let* j := eval G E i in upto v j
  | XNot e => let* v := eval G E e in let* b := of_some (truth v) in ret (KBool (negb b))
  | XNeg e => let* v := eval G E e in match v with KInt z => ret (KInt (- z)) | _ => unmod end
  | XAnd a b => let* v := eval G E a in let* c := of_some (truth v) in if c then eval G E b else ret v
  | XCmp o a b => let* v := eval G E a in let* w := eval G E b in let* c := of_some (compare o v w) in ret (KBool c)
  | XMod a b => let* v := eval G E a in let* w := eval G E b in match v with KText f => ret (KFormat f w) | _ => unmod end
  | XComp b x l => let* v := eval G E l in
                   match v with KList vs | KTuple vs => let* ws := mapM (fun u => eval G ((x, u) :: E) b) vs in ret (KList ws) | _ => unmod end
  end.

(** How a statement ends. *)
Inductive sig := Next | Break | Continue | Return (v : pv).
Definition test (G E : vars) (c : px) : M bool := let* v := eval G E c in of_some (truth v).
Fixpoint assign (E : vars) (xs : list string) (vs : list pv) : option vars :=
  match xs, vs with
  | [], [] => Some E
  | x :: xs', v :: vs' => assign (put E x v) xs' vs'
  | _, _ => None
  end.
Fixpoint repeat_ (k : nat) (c : vars -> M bool) (b : vars -> M (vars * sig)) (E : vars) : M (vars * sig) :=
  match k with
  | O => fun _ => More
  | S k' =>
      let* t := c E in
      if t then
        let* (E', g) := b E in
        match g with
        | Next | Continue => repeat_ k' c b E'
        | Break => ret (E', Next)
        | Return v => ret (E', g)
        end
      else ret (E, Next)
  end.
Fixpoint exec (G E : vars) (s : ps) {struct s} : M (vars * sig) :=
  let block := fix block (E : vars) (l : list ps) : M (vars * sig) :=
    match l with
    | [] => ret (E, Next)
    | s :: l' => let* (E', g) := exec G E s in match g with Next => block E' l' | _ => ret (E', g) end
    end in
  match s with
  | PImport m => ret (put E m (KName m), Next)
  | PFrom m names =>
      ret (fold_left (fun E x => put E x (if String.eqb m "pyasn1_modules" then KModule x else KName (m ++ "." ++ x)%string)) names E, Next)
  | PAssign [x] e => let* v := eval G E e in ret (put E x v, Next)
  | PAssign xs e => let* v := eval G E e in
                    match v with KTuple vs => let* E' := of_some (assign E xs vs) in ret (E', Next) | _ => unmod end
  | PAug x e => let* v := eval G E e in
                match var E x, v with Some (KInt a), KInt b => ret (put E x (KInt (a + b)), Next) | _, _ => unmod end
  | PAppend x e => let* v := eval G E e in
                   match var E x with Some (KList l) => ret (put E x (KList (l ++ [v])), Next) | _ => unmod end
  | PExpr e => let* _ := eval G E e in ret (E, Next)
  | PAssert e => let* b := test G E e in if b then ret (E, Next) else throw AssertionError
  | PIf c a b => let* t := test G E c in if t then block E a else block E b
  | PWhile c b => repeat_ n (fun E => test G E c) (fun E => block E b) E
  | PBreak => ret (E, Break)
  | PContinue => ret (E, Continue)
  | PReturn e => let* v := eval G E e in ret (E, Return v)
  | PDef f _ _ _ => ret (put E f (KPem f), Next)
  end.
Fixpoint block (G E : vars) (l : list ps) : M (vars * sig) :=
  match l with
  | [] => ret (E, Next)
  | s :: l' => let* (E', g) := exec G E s in match g with Next => block G E' l' | _ => ret (E', g) end
  end.
End run.

(** ** Functions of pem.py *)

Fixpoint definition (l : list ps) (f : string) : option (list (string * option px) * option string * list ps) :=
  match l with
  | [] => None
  | PDef g ps va b :: l' => match definition l' f with
                            | Some d => Some d
                            | None => if String.eqb f g then Some (ps, va, b) else None
                            end
  | _ :: l' => definition l' f
  end.
Fixpoint arguments (dflt : px -> M pv) (ps : list (string * option px)) (va : option string) (args : list pv) : M vars :=
  match ps, args with
  | (x, _) :: ps', v :: args' => let* E := arguments dflt ps' va args' in ret ((x, v) :: E)
  | (x, Some e) :: ps', [] => let* v := dflt e in let* E := arguments dflt ps' va [] in ret ((x, v) :: E)
  | (_, None) :: _, [] => unmod
  | [], _ => match va, args with
             | Some x, _ => ret [(x, KTuple args)]
             | None, [] => ret []
             | None, _ => unmod
             end
  end.
(** A call of the function [f] of pem.py, its own calls of functions of pem.py going to [pem]. *)
Definition call_pem (W : world) (argv : list Text.text) (n : nat) (pem : string -> list pv -> list (string * pv) -> M pv)
  (f : string) (args : list pv) (kw : list (string * pv)) : M pv :=
  match definition pem_py f, kw with
  | Some (ps, va, b), [] =>
      let* (G, _) := block W argv pem n [] [] pem_py in
      let* E := arguments (eval W argv pem G []) ps va args in
      let* (_, g) := block W argv pem n G E b in
      match g with Return v => ret v | _ => ret KNone end
  | _, _ => unmod
  end.
(** No function of pem.py calls one that calls another. *)
Definition pem_calls (W : world) (argv : list Text.text) (n : nat) : string -> list pv -> list (string * pv) -> M pv :=
  call_pem W argv n (call_pem W argv n (fun _ _ _ => unmod)).

(** ** Tools *)

(** A program with the arguments [argv] (sys.argv) on the text [f]. *)
Definition run_script (W : world) (n : nat) (src : list ps) (argv : list Text.text) (f : Text.text) : out (vars * sig) :=
  block W argv (pem_calls W argv n) n [] [] src (mkIO f []).
End codec.
