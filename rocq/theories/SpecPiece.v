(** The same call on a piece of a document and on the document (C76). *)
From Coq Require Import String.
From Verif Require Import GoStd Json Ops.

(** A value as a document of its own. *)
Definition piece (u : jv) : doc := Doc [] u [].

(** The call with [p] put before its path. *)
Definition under (p : list bytes) (o : op) : op :=
  match o with
  | OSet q v => OSet (p ++ q) v
  | ODelete q x => ODelete (p ++ q) x
  | OAdd q v => OAdd (p ++ q) v
  | OAddKV q k v => OAddKV (p ++ q) k v
  | OInsert q z v => OInsert (p ++ q) z v
  | OSetKey q x k => OSetKey (p ++ q) x k
  | OStore q k v => OStore (p ++ q) k v
  end.
