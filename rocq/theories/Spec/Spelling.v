(** The names that are not those of the RFCs. *)
From Coq Require Import List String ZArith Bool.
Import ListNotations.
Open Scope string_scope.
Open Scope list_scope.

(** RFC, /repo. *)
Definition respelled : list (string * string) := [
  ("unsigned-integer-value", "gauge32-value");  (* rfc1902 *)
  ("contextEngineID", "contextEngineId");       (* rfc3412 *)
  ("rdnSequence", "");                          (* rfc2459, which names no alternative *)
  ("values", "vals");                           (* rfc2459 *)
  ("teletex", "teletelex");                     (* rfc2459 *)
  ("hashAlgorithm", "hashFunc");                (* rfc8017, which uses the type of rfc4055 *)
  ("maskGenAlgorithm", "maskGenFunc");
  ("pSourceAlgorithm", "pSourceFunc");
  ("type", "attrType");                         (* rfc5958, which uses the type of rfc5652 *)
  ("values", "attrValues");
  ("attrId", "attrType");                       (* rfc7292 *)
  ("v1-0", "v1_0");                             (* rfc8018 *)
  ("signature", "signatureValue");              (* rfc2459 Certificate *)
  ("popo", "pop");                              (* rfc4210, which uses the types of rfc2511 and rfc2314 *)
  ("subjectPKInfo", "subjectPublicKeyInfo");
  ("genp", "gen");                              (* rfc4210 *)
  ("body", "infoValue");                        (* rfc4210 ProtectedPart *)
  ("semanticsIdentifier", "semanticsIndentifier")   (* rfc3739 *)
].
(** Named numbers that are left out. *)
Definition unnamed : list (list (string * Z)) := [
  [("two-prime", 0); ("multi", 1)];             (* rfc3447 *)
  [("v1", 0)];                                  (* rfc2986 *)
  [("trailerFieldBC", 1)]                       (* rfc4055 *)
]%Z.
(** Alternatives that are not in the RFC. *)
Definition added : list string := ["ia5String" (* rfc2459 DirectoryString *)].

(** Named numbers that are not in the RFC. *)
Definition spare : list (string * Z) := [
  ("undefinedStatus", 4);                       (* rfc2560, rfc6960 *)
  ("reserved-9", 9); ("reserved-35", 35); ("reserved-70", 70); ("reserved-81", 81); ("reserved-82", 82);
  ("reserved-83", 83); ("reserved-84", 84); ("reserved-85", 85); ("reserved-86", 86); ("reserved-87", 87);
  ("reserved-88", 88); ("reserved-89", 89); ("reserved-90", 90)     (* rfc2251 *)
]%Z.

Definition same_name (a b : string) : bool :=
  if String.eqb a b then true else existsb (fun p => String.eqb (fst p) a && String.eqb (snd p) b) respelled.
Definition is_pair (p q : string * Z) : bool := String.eqb (fst p) (fst q) && Z.eqb (snd p) (snd q).
Definition numbers_named (a b : list (string * Z)) : bool :=
  (fix go (a b : list (string * Z)) {struct b} : bool :=
     match a, b with
     | [], [] => true
     | (x, n) :: a', (y, m) :: b' =>
         if same_name x y && Z.eqb n m then go a' b' else if existsb (is_pair (y, m)) spare then go a b' else false
     | [], (y, m) :: b' => if existsb (is_pair (y, m)) spare then go a b' else false
     | _, _ => false
     end) a b.
Definition same_names (a b : list (string * Z)) : bool :=
  if numbers_named a b then true else match b with [] => existsb (numbers_named a) unnamed | _ => false end.
Definition is_added (a : string) : bool := existsb (String.eqb a) added.
