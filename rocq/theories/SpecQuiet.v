(** Specification for C74: histories that keep a text complete, and so never panic. *)
From Coq Require Import String.
From Verif Require Import GoStd Json SpecPanic Core Errors Api Typed JO Parser.
From Verif Require SpecScan.

Local Open Scope N_scope.

(** ** JO

    Calls that put a value in the place of another: the text written must be complete, so that it can be the end of the text.
    Strings are written by formatType, numbers and booleans are always complete.  Insert and Delete are none of these calls. *)
Definition keeps_end (c : jcall) : Prop :=
  match c with
  | CSet v _ | CSetFloat v _ | CStore _ (Some v) _ | CStoreString _ v _ | CStoreFloat _ v _ => complete v
  | CAddKeyValueString key _ _ => key <> []
  | CStore _ None _ | CDelete _ | CInsert _ _ _ | CInsertString _ _ _ | CInsertInt _ _ _ | CInsertFloat _ _ _ | CInsertBool _ _ _ => False
  | _ => True
  end.

(** strconv.ParseFloat takes only texts that can stand as a scalar (C49). *)
Definition takes_scalars (pf : bytes -> bool) : Prop := forall s, pf s = true -> scalar_ok s = true.

(** ** Parser *)
Inductive kcall : Type :=
| KSet (v : bytes) (path : list bytes)
| KSetKey (key : bytes) (path : list bytes)
| KAdd (v : bytes) (path : list bytes)
| KAddKeyValue (key v : bytes) (path : list bytes)
| KGet (path : list bytes).

(** The parser after a call, whether it reports an error or not; None after a panic. *)
Definition after (r : pres) : option parser := match r with PRet p _ => Some p | PPanic => None end.
Definition k_step (p : parser) (c : kcall) : option parser :=
  match c with
  | KSet v path => after (P_Set p v path)
  | KSetKey key path => after (P_SetKey p key path)
  | KAdd v path => after (P_Add p v path)
  | KAddKeyValue key v path => after (P_AddKeyValue p key v path)
  | KGet path => match P_Get p path with Panic => None | _ => Some p end
  end.
Fixpoint k_run (p : parser) (cs : list kcall) : option parser :=
  match cs with
  | [] => Some p
  | c :: r => match k_step p c with Some p' => k_run p' r | None => None end
  end.

(** The values: complete texts, no lone quote, and with an open bracket first not too many closing ones outside of strings.  JSON texts are
    such values ([C74_documents_fair]).  Keys and paths are any bytes. *)
Definition lone_quote (v : bytes) : Prop := exists w1 w2, v = w1 ++ 34 :: w2 /\ ws_ok w1 = true /\ ws_ok w2 = true.
Definition fair (v : bytes) : Prop :=
  complete v /\ ~ lone_quote v /\ forall c r, v = c :: r -> SpecScan.opening c = true -> ~ SpecScan.overclosed (SpecScan.skeleton v).
Definition k_fair (c : kcall) : Prop :=
  match c with KSet v _ | KAdd v _ | KAddKeyValue _ v _ => fair v | _ => True end.
