(** Which types are encoded unambiguously, and which values conform to a type.

    [wf] is a decidable condition on schema objects under which pyasn1's decoder can
    find its way; [conf] says that a value inhabits a type in the form the decoder
    produces (canonical where DER demands it). *)
From Coq Require Import List String ZArith NArith Bool Lia.
From Verif Require Import Asn1.Types Py.Eval Asn1.Bytes Asn1.Charset Asn1.Der.
Import ListNotations.
Open Scope string_scope.
Open Scope N_scope.
Open Scope list_scope.

Section codec.
Context {Cdc : codec}.

(** ** Types *)

(** [y] = [x], or [x] with inner tags removed. *)
Fixpoint suffix_b (y x : list tag) : bool :=
  tags_eqb y x || match x with [] => false | _ :: x' => suffix_b y x' end.
(** [y] is [x] without some inner tags: the decoder meets [y] on its way to [x]. *)
Definition psuffix (y x : list tag) : bool :=
  match y, x with
  | [], _ | _, [] => false
  | _, _ :: x' => suffix_b y x'
  end.
Definition no_suffix (ks : list (list tag)) : bool :=
  forallb (fun x => forallb (fun y => negb (psuffix y x)) ks) ks.

(** Explicit tags: constructed (on the wire) and not universal. *)
Definition outer_ok (k : bool) (ts : list tag) : bool :=
  forallb (fun t => (tcons t || k) && negb (tclass_eqb (tcls t) Universal)) (tl ts).

Definition fmap (f : field) : tmap := tag_map (ftype f).
Definition freq (f : field) : bool := match fpres f with Req => true | _ => false end.
(** The components that may come next at an optional component. *)
Fixpoint frun (fs : list field) : list field :=
  match fs with [] => [] | f :: fs' => if freq f then [f] else f :: frun fs' end.
(** Distinguishable by tags; an ANY only on its own. *)
Definition run_ok (fs : list field) : bool :=
  let M := tmap_union (map fmap fs) in
  tok M && no_suffix (keys M) && (negb (dflt M) || Nat.eqb (List.length fs) 1).
Fixpoint runs_ok (fs : list field) : bool :=
  match fs with
  | [] => true
  | f :: fs' => (freq f || run_ok (frun fs)) && runs_ok fs'
  end.
(** Distinguishable by tags, no ANY. *)
Definition alts_ok (fs : list field) : bool :=
  let M := tmap_union (map fmap fs) in tok M && no_suffix (keys M) && negb (dflt M).

Definition openable (t : asn1) : bool :=
  match t with TPrim KAny _ | TPrim KOcts _ | TOf _ _ (Some (TPrim KAny _)) => true | _ => false end.
Definition nonempty {A} (l : list A) : bool := match l with [] => false | _ => true end.

Fixpoint wf (t : asn1) : bool :=
  let fix go (fs : list field) : bool :=
    match fs with
    | [] => true
    | Fld _ p t' d o :: fs' =>
        wf t' && (match p with Def => is_some d | _ => true end)
        && (match o with Some _ => openable t' | None => true end) && go fs'
    end in
  match t with
  | TPrim KAny m => Nat.leb (List.length (tags m)) 1
  | TPrim _ m => simple (tags m) && outer_ok false (tags m)
  | TSeq isset m fs =>
      nonempty (tags m) && outer_ok true (tags m) && (if isset then alts_ok fs else runs_ok fs) && go fs
  | TOf _ m e =>
      nonempty (tags m) && outer_ok true (tags m) && match e with Some t' => wf t' | None => false end
  | TChoice m alts => outer_ok true (tags m) && alts_ok alts && go alts
  end.

(** ** Values *)

Definition res_eqb (a b : res bytes) : bool :=
  match a, b with
  | Ok x, Ok y => list_eqb N.eqb x y
  | Huge, Huge => true
  | _, _ => false
  end.

(** Exactly one item, not end-of-octets. *)
Definition single (b : bytes) : bool :=
  match dec_header b with Some (g, _, []) => negb (tags_eqb [g] eoo) | _ => false end.

Definition conf_prim (k : prim) (m : meta) (v : aval) : bool :=
  csat [] (spec m) v &&
  match k, v with
  | KBool, VBool _ | (KInt | KEnum), VInt _ | KBits, VBits _ | KNull, VNull => true
  | KOcts, VOcts b => forallb is_byte b
  | KAny, VOcts b => forallb is_byte b && (nonempty (tags m) || single b)
  | KOid, VOid a => oid_ok a
  | KStr s, VText t =>
      forallb (encodable (charset_of s)) t &&
      match time_bounds s with
      | None => true
      | Some (lo, hi) => match norm_time lo hi t with Ok t' => list_eqb N.eqb t' t | _ => false end
      end
  | _, _ => false
  end.

(** Entry of a registry: a test for the values it opens to; [None] = no entry. *)
Definition opened := did -> key -> option (aval -> bool).

(** The octets behind an opened component. *)
Definition plain1 (v : aval) : aval :=
  match v with
  | VTyped t (Some x) => match enc x false false t with Ok b => VOcts b | _ => v end
  | _ => v
  end.
Definition plain (v : aval) : aval :=
  match v with VList l => VList (map plain1 l) | _ => plain1 v end.
Definition all_opened (test : aval -> bool) (v : aval) : bool :=
  match v with VList l => forallb test l | _ => test v end.

(** The entry that opens component [f] of the given SEQUENCE value, if any:
    [None] when the governing component is missing. *)
Definition entry_for (C : option opened) (fs : list field) (vs : list (option aval)) (f : field)
  : option (option (aval -> bool)) :=
  match fopen f, C with
  | Some (n, d), Some c => match gov_key (slot_of fs vs n) with
                           | Some k => Some (c d k)
                           | None => None
                           end
  | _, _ => Some None
  end.

(** [C]: None without decodeOpenTypes. *)
Fixpoint conf (C : option opened) (t : asn1) (v : aval) {struct t} : bool :=
  match t, v with
  | TPrim k m, _ => conf_prim k m v
  | TSeq isset m fs, VSeq vs =>
      (negb (ctruthy (spec m)) || csat (fnames fs) (spec m) v)
      && (fix go (l : list field) (ws : list (option aval)) {struct l} : bool :=
            match l, ws with
            | [], [] => true
            | Fld n p t' d o :: l', w :: ws' =>
                match w with
                | None => is_opt p
                | Some x =>
                    match p, d with
                    | Def, Some dv => aval_eqb x dv && negb (is_some o)
                    | _, _ => false
                    end
                    ||
                    ((match entry_for C fs vs (Fld n p t' d o) with
                      | None => false
                      | Some None => conf C t' x
                      | Some (Some test) =>
                          all_opened test x && conf C t' (plain x) && res_eqb (enc x true false t') (enc (plain x) true false t')
                      end)
                     && (negb (is_opt p) || res_eqb (enc x (is_some o) true t') (enc x (is_some o) false t'))
                     && match p, d with Def, Some dv => negb (aval_eqb x dv) | _, _ => true end)
                end && go l' ws'
            | _, _ => false
            end) fs vs
  | TOf isset m (Some t'), VList vs =>
      (negb (ctruthy (spec m)) || csat [] (spec m) v)
      && forallb (conf C t') vs
      && (negb isset ||
          match rmap (fun x => enc x false false t') vs with
          | Ok cs => list_eqb (list_eqb N.eqb) (isort octs_le cs) cs
          | _ => true
          end)
  | TChoice m alts, VAlt i x =>
      (fix nth (l : list field) (i : nat) {struct l} : bool :=
         match l, i with
         | Fld _ _ t' _ _ :: _, O => conf C t' x
         | _ :: l', S i' => nth l' i'
         | [], _ => false
         end) alts i
  | _, _ => false
  end.

End codec.
