(** The import machine: [import m] as executed by the Python interpreter for the
    modules of pyasn1_modules, with sys.modules and the registries (dicts) that
    modules update while they load.

    Models: the module-level code of every /repo/pyasn1_modules/rfc*.py (printed
    into Gen/), executed statement by statement; an import statement first imports
    the modules it names (importlib semantics: a module in sys.modules is not
    executed again).  pyasn1_modules/__init__.py:1-2 (which only sets
    [__version__]) is not modelled.  A cyclic import is outside the model ([Stuck]);
    the theorems show that it never happens. *)
From Coq Require Import List String ZArith NArith Bool Lia.
From Verif Require Import Py.Syntax Asn1.Types Py.Eval Gen.All.
Import ListNotations.
Open Scope string_scope.
Open Scope list_scope.

(** sys.modules (newest first) and the chronological log of registry updates,
    each with the module performing it. *)
Record world := mkW { w_mods : list (string * modres); w_log : list (string * (did * items)) }.
Definition empty : world := mkW [] [].

Definition loaded (W : world) (m : string) : option modres := lookup (w_mods W) m.

(** pyasn1_modules modules that an import statement needs. *)
Definition needs (s : stmt) : list string :=
  match s with
  | SFrom m names => if String.eqb m pkg then map fst names
                     else match strip_pkg m with Some x => [x] | None => [] end
  | SFromStar m => match strip_pkg m with Some x => [x] | None => [] end
  | _ => []
  end.

Fixpoint foldM {A B} (f : A -> B -> r A) (l : list B) (a : A) : r A :=
  match l with [] => OK a | b :: l' => do a' <- f a b; foldM f l' a' end.

(** New registry updates of a statement. *)
Definition delta (S S' : state) : list (did * items) := skipn (List.length (s_log S)) (s_log S').

Section RUN.
  Variable imp1 : world -> string -> r world.
  Fixpoint run (M : string) (p : module) (W : world) (S : state) : r (world * state) :=
    match p with
    | [] => OK (W, S)
    | (_, s) :: p' =>
        do W1 <- foldM imp1 (needs s) W;
        do S' <- exec_stmt M (loaded W1) S s;
        run M p' (mkW (w_mods W1) (w_log W1 ++ map (pair M) (delta S S'))) S'
    end.
End RUN.

Definition init : state := mkS [] [] [].
Definition result (S : state) : modres := mkR (s_ns S) (s_cls S) (s_log S).

(** [import m] in world [W]; [loading] = modules being imported by the callers. *)
Fixpoint import (fuel : nat) (loading : list string) (W : world) (m : string) : r world :=
  match fuel with
  | O => Stuck "import nesting"
  | S fuel' =>
      match loaded W m with
      | Some _ => OK W
      | None =>
          if existsb (String.eqb m) loading then Stuck "cyclic import" else
          match lookup all_modules m with
          | None => Raise "ModuleNotFoundError"
          | Some p =>
              do (W', St) <- run (import fuel' (m :: loading)) m p W init;
              OK (mkW ((m, result St) :: w_mods W') (w_log W'))
          end
      end
  end.

Definition nesting : nat := 20.

(** [import m1; import m2; ...] in a fresh interpreter. *)
Definition session (h : list string) : r world := foldM (import nesting []) h empty.

(** ** Registries (Python dicts) *)

(** dict.get(k) after the updates [its], last binding wins. *)
Fixpoint item_get (its : items) (k : key) : option (asn1 * option aval) :=
  match its with
  | [] => None
  | (k', v) :: its' => match item_get its' k with
                       | Some w => Some w
                       | None => if key_eqb k k' then Some v else None
                       end
  end.
(** Contents of registry [d] in world [W]. *)
Definition registry (W : world) (d : did) : items :=
  List.concat (map snd (filter (fun p => did_eqb (fst p) d) (map snd (w_log W)))).
Definition reg_get (W : world) (d : did) (k : key) : option (asn1 * option aval) :=
  item_get (registry W d) k.
