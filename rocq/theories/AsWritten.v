(** The functions as written in Go (CoreGo.v and the files after it) on documents, without the models in between. *)
From Coq Require Import String.
From Verif Require Import GoStd Json Spec Focus Domains Errors Core Api Ops GoLang SpecPtr UpdateGo.
From Verif Require JO.

(** Go's bytes *)
Definition octets (x : bytes) : Prop := Forall (fun c => (c < 256)%N) x.
(** Of a loop bounded by [fuel]: as if it were not *)
Definition eventually (P : nat -> Prop) : Prop := exists n, forall fuel, (n <= fuel)%nat -> P fuel.

(** The updates (inter_set.go:11-106, inter_delete.go:6-54, inter_add.go:8-230), and a caller who keeps the text when a call fails *)
Definition call_go (fuel : nat) (o : op) (json : bytes) : flow unit (bytes * option err) :=
  match o with
  | OSet p v => Set_go fuel json (render v) p
  | ODelete q x => Delete_go fuel json (q ++ [x])
  | OAdd p v => Add_go fuel json (render v) p
  | OAddKV p k v => AddKeyValue_go fuel json k (Some (render v)) p
  | OInsert p z v => Insert_go fuel json z (render v) p
  | OSetKey q x k => SetKey_go fuel json k (q ++ [x])
  | OStore p k v => Store_go fuel json k (Some (render v)) p
  end.
Fixpoint run_go (fuel : nat) (ops : list op) (json : bytes) : flow unit bytes :=
  match ops with
  | [] => Ret json
  | o :: r => match call_go fuel o json with
              | Ret (out, None) => run_go fuel r out
              | Ret (_, Some _) => run_go fuel r json
              | Out => Out
              | _ => Pan
              end
  end.
(** The texts a call is given *)
Definition op_octets (o : op) : Prop :=
  match o with
  | OSet _ v | OAdd _ v | OInsert _ _ v => octets (render v)
  | ODelete _ _ => True
  | OAddKV _ k v | OStore _ k v => octets k /\ octets (render v)
  | OSetKey _ _ k => octets k
  end.

(** A result, with an error or without: no panic, and an end *)
Definition answered {A : Type} (f : nat -> flow unit (A * option err)) : Prop := exists a e, eventually (fun fuel => f fuel = Ret (a, e)).

(** The same calls of the methods of Parser (parse_set.go, parse_delete.go, parse_add.go); it has no Store *)
Definition pcall_of (o : op) : list pcall :=
  match o with
  | OSet p v => [CSet (render v) p]
  | ODelete q x => [CDelete (q ++ [x])]
  | OAdd p v => [CAdd (render v) p]
  | OAddKV p k v => [CAddKeyValue k (render v) p]
  | OInsert p z v => [CInsert z (render v) p]
  | OSetKey q x k => [CSetKey k (q ++ [x])]
  | OStore _ _ _ => []
  end.
Definition calls_of (ops : list op) : list pcall := flat_map pcall_of ops.
Definition pcall_octets (c : pcall) : Prop :=
  match c with
  | CSet v _ | CAdd v _ | CInsert _ v _ => octets v
  | CSetKey k _ => octets k
  | CDelete _ => True
  | CAddKeyValue k v _ => octets k /\ octets v
  end.

(** The same for the methods of JO *)
Definition jcall_octets (c : JO.jcall) : Prop :=
  match c with
  | JO.CAddKeyValue k v _ | JO.CStore k v _ => octets k /\ octets (match v with Some v => v | None => [] end)
  | JO.CAddKeyValueString k v _ | JO.CAddKeyValueFloat k v _ | JO.CStoreString k v _ | JO.CStoreFloat k v _ => octets k /\ octets v
  | JO.CAddKeyValueInt k _ _ | JO.CAddKeyValueBool k _ _ | JO.CStoreInt k _ _ | JO.CStoreBool k _ _ | JO.CSetKey k _ => octets k
  | JO.CAdd v _ | JO.CInsert _ v _ | JO.CAddString v _ | JO.CAddFloat v _ | JO.CInsertString _ v _ | JO.CInsertFloat _ v _
  | JO.CSet v _ | JO.CSetString v _ | JO.CSetFloat v _ => octets v
  | JO.CAddInt _ _ | JO.CAddBool _ _ | JO.CInsertInt _ _ _ | JO.CInsertBool _ _ _ | JO.CSetInt _ _ | JO.CSetBool _ _ | JO.CDelete _ => True
  end.
