(** Specification for C75, histories: calls of JO and of a Parser whose keys and values are UTF-8.  Nothing is asked of the
    paths, nor of numbers and booleans. *)
From Coq Require Import String.
From Verif Require Import GoStd SpecPtr ParserTypedGo SpecUtf8.
From Verif Require JO.

Local Open Scope N_scope.

Definition jcall_utf8 (c : JO.jcall) : Prop :=
  match c with
  | JO.CAddKeyValue k v _ | JO.CStore k v _ => utf8 k /\ forall t, v = Some t -> utf8 t
  | JO.CAddKeyValueString k v _ | JO.CAddKeyValueFloat k v _ | JO.CStoreString k v _ | JO.CStoreFloat k v _ => utf8 k /\ utf8 v
  | JO.CAddKeyValueInt k _ _ | JO.CAddKeyValueBool k _ _ | JO.CStoreInt k _ _ | JO.CStoreBool k _ _ | JO.CSetKey k _ => utf8 k
  | JO.CAdd v _ | JO.CInsert _ v _ | JO.CAddString v _ | JO.CAddFloat v _ | JO.CInsertString _ v _ | JO.CInsertFloat _ v _
  | JO.CSet v _ | JO.CSetString v _ | JO.CSetFloat v _ => utf8 v
  | JO.CAddInt _ _ | JO.CAddBool _ _ | JO.CInsertInt _ _ _ | JO.CInsertBool _ _ _ | JO.CSetInt _ _ | JO.CSetBool _ _ | JO.CDelete _ => True
  end.
Definition tcall_utf8 (c : tcall) : Prop :=
  match c with
  | TCall (CSet v _) | TCall (CAdd v _) | TCall (CInsert _ v _) => utf8 v
  | TCall (CSetKey k _) => utf8 k
  | TCall (CDelete _) => True
  | TCall (CAddKeyValue k v _) => utf8 k /\ utf8 v
  | TSetString v _ | TSetFloat v _ | TAddString v _ | TAddFloat v _ | TInsertString _ v _ | TInsertFloat _ v _ => utf8 v
  | TAddKeyValueString k v _ | TAddKeyValueFloat k v _ => utf8 k /\ utf8 v
  | TAddKeyValueInt k _ _ | TAddKeyValueBool k _ _ => utf8 k
  | TSetInt _ _ | TSetBool _ _ | TAddInt _ _ | TAddBool _ _ | TInsertInt _ _ _ | TInsertBool _ _ _ => True
  end.
