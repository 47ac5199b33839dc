(** Specification for C74, the functions as written in Go: which values the typed calls of a Parser may be given. *)
From Coq Require Import String.
From Verif Require Import GoStd Json SpecPanic SpecPtr ParserTypedGo SpecQuiet.
From Verif Require SpecScan.

Local Open Scope N_scope.

(** A string for AddString or AddKeyValueString: not the lone quote, and with an open bracket first not too many closing ones. *)
Definition fair_string (v : bytes) : Prop :=
  v <> [34] /\ forall c r, v = c :: r -> SpecScan.opening c = true -> ~ SpecScan.overclosed (SpecScan.skeleton v).
Definition t_fair (c : tcall) : Prop :=
  match c with
  | TCall (CSet v _) | TCall (CAdd v _) | TCall (CAddKeyValue _ v _) => fair v
  | TCall (CSetKey _ _) => True
  | TSetString v _ => v <> [] /\ (hd 0 v = 34 \/ last v 0 = 34 -> fair v)
  | TAddString v _ | TAddKeyValueString _ v _ => fair_string v
  | TSetFloat v _ | TAddFloat v _ | TAddKeyValueFloat _ v _ => fair v
  | TSetInt _ _ | TSetBool _ _ | TAddInt _ _ | TAddBool _ _ | TAddKeyValueInt _ _ _ | TAddKeyValueBool _ _ _ => True
  | _ => False
  end.
