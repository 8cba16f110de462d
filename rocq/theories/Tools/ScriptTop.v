(** Top-level statements of tools/ocspclient.py that Tools/ScriptLang.v has no form for. *)
From Coq Require Import List String.
From Verif Require Import Tools.ScriptLang.

Inductive top :=
| TStmt (p : ps)
| TClass (x : string) (base : px) (body : list ps)   (* class x(base): body *)
| TImport (a m x : string).                          (* try: import a; except ImportError: import m as x *)
