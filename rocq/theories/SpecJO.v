(** Specification of the JO methods: the function of the same name applied to the body. *)
From Coq Require Import String.
From Verif Require Import GoStd Json Core Errors Api Typed Iter Ops JO.

Definition func (pf : bytes -> bool) (body : bytes) (c : jcall) : upd :=
  match c with
  | CAddKeyValue key value path => AddKeyValue body key value path
  | CAdd value path => Add_ body value path
  | CInsert index value path => Insert body index value path
  | CAddKeyValueString key s path => AddKeyValueString pf body key s path
  | CAddKeyValueInt key n path => AddKeyValueInt body key n path
  | CAddKeyValueFloat key t path => AddKeyValueFloat body key t path
  | CAddKeyValueBool key v path => AddKeyValueBool body key v path
  | CAddString s path => AddString pf body s path
  | CAddInt n path => AddInt body n path
  | CAddFloat t path => AddFloat body t path
  | CAddBool v path => AddBool body v path
  | CInsertString index s path => InsertString pf body index s path
  | CInsertInt index n path => InsertInt body index n path
  | CInsertFloat index t path => InsertFloat body index t path
  | CInsertBool index v path => InsertBool body index v path
  | CStore key value path => Store body key value path
  | CStoreString key s path => StoreString pf body key s path
  | CStoreInt key n path => StoreInt body key n path
  | CStoreFloat key t path => StoreFloat body key t path
  | CStoreBool key v path => StoreBool body key v path
  | CSet value path => Set_ body value path
  | CSetString s path => SetString pf body s path
  | CSetInt n path => SetInt body n path
  | CSetFloat t path => SetFloat body t path
  | CSetBool v path => SetBool body v path
  | CSetKey newKey path => SetKey body newKey path
  | CDelete path => Delete body path
  end.

(** What a call returns: the new document (nil is the empty one) and the error. *)
Definition returned (r : upd) : option (bytes * option err) :=
  match r with
  | Done out => Some (out, None)
  | Fail o e => Some (match o with Some out => out | None => [] end, Some e)
  | UPanic => None
  end.

(** A history of function calls, each on the document the one before returned. *)
Fixpoint history (pf : bytes -> bool) (body : bytes) (cs : list jcall) : option (bytes * list (option err)) :=
  match cs with
  | [] => Some (body, [])
  | c :: cs =>
      match returned (func pf body c) with
      | Some (out, e) => match history pf out cs with Some (out, es) => Some (out, e :: es) | None => None end
      | None => None
      end
  end.

(** StoreString is the exception, unless its text needs no quotes. *)
Definition plain_store (pf : bytes -> bool) (c : jcall) : Prop :=
  match c with CStoreString _ s _ => formatType pf s = s | _ => True end.

(** What a method returns: the body afterwards and the error. *)
Definition as_pair (r : jres) : option (bytes * option err) := match r with JRet body e => Some (body, e) | JPanic => None end.

(** The methods that keep the body when they fail. *)
Definition keeps_body (c : jcall) : Prop :=
  match c with
  | CAddKeyValueString k _ _ => k <> []
  | CInsertString i _ _ => (0 <= i)%Z
  | _ => True
  end.

(** The method for an operation. *)
Definition as_call (o : op) : jcall :=
  match o with
  | OSet p v => CSet (render v) p
  | ODelete q x => CDelete (q ++ [x])
  | OAdd p v => CAdd (render v) p
  | OAddKV p k v => CAddKeyValue k (Some (render v)) p
  | OInsert p z v => CInsert z (render v) p
  | OSetKey q x k => CSetKey k (q ++ [x])
  | OStore p k v => CStore k (Some (render v)) p
  end.
