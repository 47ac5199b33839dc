(** Model of jin_object*.go: a JO holds a body; its updating methods are assignments [j.body, err = F(j.body, ...)]. *)
From Coq Require Import String.
From Verif Require Import GoStd Core Errors Api Typed Iter Walk.

Local Open Scope N_scope.

Inductive jres : Type :=
| JRet (body : bytes) (e : option err)
| JPanic.

(** [j.body, err = F(...); return err]; a nil slice is an empty body *)
Definition assign (r : upd) : jres :=
  match r with
  | Done out => JRet out None
  | Fail (Some out) e => JRet out (Some e)
  | Fail None e => JRet [] (Some e)
  | UPanic => JPanic
  end.

(** jin_object.go:9-11 [NewJSON], 14-16 [New], 18-20 [JSON], 22-24 [String] *)
Definition NewJSON : bytes := b "{}".
Definition New (buffer : bytes) : bytes := buffer.
Definition JO_JSON (body : bytes) : bytes := body.
Definition JO_String (body : bytes) : bytes := body.

(** jin_object_add.go:110-125 [Store] *)
Definition JO_Store (body key : bytes) (value : option bytes) (path : list bytes) : jres :=
  let v := match value with None => [] | Some v => v end in
  match core body false (path ++ [key]) with
  | Panic => JPanic
  | Err e => if err_equal (Some e) 8 then assign (AddKeyValue body key value path) else JRet body (Some e)
  | Ok (_, start, end_) =>
      match at_pred body start with
      | Ok c =>
          match (if c =? 34 then do d <- at_ body end_; Ok (d =? 34) else Ok false) with
          | Ok true => match replace body v (pred start) (S end_) with Ok out => JRet out None | _ => JPanic end
          | Ok false => match replace body v start end_ with Ok out => JRet out None | _ => JPanic end
          | _ => JPanic
          end
      | _ => JPanic
      end
  end.

(** The updating methods and their arguments; floats are given by the text FormatFloat makes of them. *)
Inductive jcall : Type :=
| CAddKeyValue (key : bytes) (value : option bytes) (path : list bytes)
| CAdd (value : bytes) (path : list bytes)
| CInsert (index : Z) (value : bytes) (path : list bytes)
| CAddKeyValueString (key : bytes) (s : bytes) (path : list bytes)
| CAddKeyValueInt (key : bytes) (n : Z) (path : list bytes)
| CAddKeyValueFloat (key : bytes) (t : bytes) (path : list bytes)
| CAddKeyValueBool (key : bytes) (v : bool) (path : list bytes)
| CAddString (s : bytes) (path : list bytes)
| CAddInt (n : Z) (path : list bytes)
| CAddFloat (t : bytes) (path : list bytes)
| CAddBool (v : bool) (path : list bytes)
| CInsertString (index : Z) (s : bytes) (path : list bytes)
| CInsertInt (index : Z) (n : Z) (path : list bytes)
| CInsertFloat (index : Z) (t : bytes) (path : list bytes)
| CInsertBool (index : Z) (v : bool) (path : list bytes)
| CStore (key : bytes) (value : option bytes) (path : list bytes)
| CStoreString (key : bytes) (s : bytes) (path : list bytes)
| CStoreInt (key : bytes) (n : Z) (path : list bytes)
| CStoreFloat (key : bytes) (t : bytes) (path : list bytes)
| CStoreBool (key : bytes) (v : bool) (path : list bytes)
| CSet (value : bytes) (path : list bytes)
| CSetString (s : bytes) (path : list bytes)
| CSetInt (n : Z) (path : list bytes)
| CSetFloat (t : bytes) (path : list bytes)
| CSetBool (v : bool) (path : list bytes)
| CSetKey (newKey : bytes) (path : list bytes)
| CDelete (path : list bytes).

Definition jo_call (pf : bytes -> bool) (body : bytes) (c : jcall) : jres :=
  match c with
  | CAddKeyValue key value path => assign (AddKeyValue body key value path)   (* jin_object_add.go:6-10 *)
  | CAdd value path => assign (Add_ body value path)   (* jin_object_add.go:13-17 *)
  | CInsert index value path => assign (Insert body index value path)   (* jin_object_add.go:20-24 *)
  | CAddKeyValueString key s path => assign (AddKeyValueString pf body key s path)   (* jin_object_add.go:27-31 *)
  | CAddKeyValueInt key n path => assign (AddKeyValueInt body key n path)   (* jin_object_add.go:34-38 *)
  | CAddKeyValueFloat key t path => assign (AddKeyValueFloat body key t path)   (* jin_object_add.go:41-45 *)
  | CAddKeyValueBool key v path => assign (AddKeyValueBool body key v path)   (* jin_object_add.go:48-52 *)
  | CAddString s path => assign (AddString pf body s path)   (* jin_object_add.go:55-59 *)
  | CAddInt n path => assign (AddInt body n path)   (* jin_object_add.go:62-66 *)
  | CAddFloat t path => assign (AddFloat body t path)   (* jin_object_add.go:69-73 *)
  | CAddBool v path => assign (AddBool body v path)   (* jin_object_add.go:76-80 *)
  | CInsertString index s path => assign (InsertString pf body index s path)   (* jin_object_add.go:83-87 *)
  | CInsertInt index n path => assign (InsertInt body index n path)   (* jin_object_add.go:90-94 *)
  | CInsertFloat index t path => assign (InsertFloat body index t path)   (* jin_object_add.go:97-101 *)
  | CInsertBool index v path => assign (InsertBool body index v path)   (* jin_object_add.go:104-108 *)
  | CStore key value path => JO_Store body key value path   (* see above *)
  | CStoreString key s path => assign (Store body key (Some s) path)   (* jin_object_add.go:128-132 *)
  | CStoreInt key n path => assign (Store body key (Some (itoa n)) path)   (* jin_object_add.go:135-139 *)
  | CStoreFloat key t path => assign (Store body key (Some t) path)   (* jin_object_add.go:142-146; [t] is the text of FormatFloat *)
  | CStoreBool key v path => assign (if v then Store body key (Some (b "true")) path else Store body key (Some (b "false")) path)   (* jin_object_add.go:149-157 *)
  | CSet value path => assign (Set_ body value path)   (* jin_object_set.go:4-8 *)
  | CSetString s path => assign (SetString pf body s path)   (* jin_object_set.go:11-15 *)
  | CSetInt n path => assign (SetInt body n path)   (* jin_object_set.go:18-22 *)
  | CSetFloat t path => assign (SetFloat body t path)   (* jin_object_set.go:25-29 *)
  | CSetBool v path => assign (SetBool body v path)   (* jin_object_set.go:32-36 *)
  | CSetKey newKey path => assign (SetKey body newKey path)   (* jin_object_set.go:39-43 *)
  | CDelete path => assign (Delete body path)   (* jin_object_others.go:4-8 *)
  end.

(** A JO used for a while: the body at the end and the errors returned; None after a panic. *)
Fixpoint jo_run (pf : bytes -> bool) (body : bytes) (cs : list jcall) : option (bytes * list (option err)) :=
  match cs with
  | [] => Some (body, [])
  | c :: cs =>
      match jo_call pf body c with
      | JRet body' e => match jo_run pf body' cs with Some (out, es) => Some (out, e :: es) | None => None end
      | JPanic => None
      end
  end.

(** jin_object_get.go:4-81, jin_object_others.go:11-38, walk.go:5-8: the reading methods pass the body on. *)
Definition JO_Get (body : bytes) (path : list bytes) := Get body path.   (* jin_object_get.go:4-6 *)
Definition JO_GetString (body : bytes) (path : list bytes) := GetString body path.   (* jin_object_get.go:9-11 *)
Definition JO_GetStringArray (body : bytes) (path : list bytes) := GetStringArray body path.   (* jin_object_get.go:14-16 *)
Definition JO_GetType (pf : bytes -> bool) (body : bytes) (path : list bytes) := GetType pf body path.   (* 19-21 *)
Definition JO_GetBool (body : bytes) (path : list bytes) := GetBool body path.   (* 24-26 *)
Definition JO_GetBoolArray (body : bytes) (path : list bytes) := GetBoolArray body path.   (* 29-31 *)
Definition JO_GetInt (body : bytes) (path : list bytes) := GetInt body path.   (* 44-46 *)
Definition JO_GetIntArray (body : bytes) (path : list bytes) := GetIntArray body path.   (* 49-51 *)
Definition JO_GetKeys (body : bytes) (path : list bytes) := GetKeys body path.   (* 64-66 *)
Definition JO_GetValues (body : bytes) (path : list bytes) := GetValues body path.   (* 69-71 *)
Definition JO_GetKeysValues (body : bytes) (path : list bytes) := GetKeysValues body path.   (* 74-76 *)
Definition JO_GetMap (body : bytes) (path : list bytes) := GetMap body path.   (* 79-81 *)
Definition JO_GetFloat {F : Type} (pf : bytes -> option F) (body : bytes) (path : list bytes) := GetFloat pf body path.   (* 34-36 *)
Definition JO_GetFloatArray {F : Type} (pf : bytes -> option F) (body : bytes) (path : list bytes) := GetFloatArray pf body path.   (* 39-41 *)
Definition JO_GetAll (body : bytes) (keys path : list bytes) := GetAll body keys path.   (* 54-56 *)
Definition JO_GetAllMap (body : bytes) (keys path : list bytes) := GetAllMap body keys path.   (* 59-61 *)
Definition JO_IterateArray {St : Type} (body : bytes) (cb : St -> bytes -> St * (bool * option err)) (path : list bytes) (s : St) :=
  IterateArray body cb path s.   (* jin_object_others.go:11-13 *)
Definition JO_IterateKeyValue {St : Type} (body : bytes) (cb : St -> bytes -> bytes -> St * (bool * option err)) (path : list bytes) (s : St) :=
  IterateKeyValue body cb path s.   (* 16-18 *)
Definition JO_IsObject (body : bytes) (path : list bytes) := IsObject body path.   (* 21-23 *)
Definition JO_IsArray (body : bytes) (path : list bytes) := IsArray body path.   (* 26-28 *)
Definition JO_IsValue (body : bytes) (path : list bytes) := IsValue body path.   (* 31-33 *)
Definition JO_IsEmpty (body : bytes) (path : list bytes) := IsEmpty body path.   (* 36-38 *)
Definition JO_Walk {St : Type} (pf : bytes -> bool) (body : bytes) (cb : St -> bytes -> bytes -> list bytes -> St * (bool * option err)) (s : St) :=
  walk pf (S (S (length body))) body [] cb s.   (* walk.go:5-8 *)
