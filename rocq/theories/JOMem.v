(** The methods of a JO on the memory of GoMem.v: [body] is the byte slice the JO holds. *)
From Coq Require Import String.
From Verif Require Import GoStd Core Errors Api Typed JO GoMem Mem.

Local Open Scope N_scope.

(** The methods with a []byte argument, handed a slice of the caller's; and all methods as in JO.v, their strings, numbers
    and bools (for those with a []byte argument: one that no one else holds). *)
Inductive mcall : Type :=
| MAddKeyValue (key : bytes) (value : option bsl) (path : list bytes)
| MAdd (value : bsl) (path : list bytes)
| MInsert (index : Z) (value : bsl) (path : list bytes)
| MStore (key : bytes) (value : option bsl) (path : list bytes)
| MSet (value : bsl) (path : list bytes)
| MOwn (c : jcall).

Definition nil_slice : bsl := Bsl 0 0 0 0.

Section JOMem.
  Variable grow : nat -> nat.

  (** [[]byte(t)] *)
  Definition bytes_of (t : bytes) : M bsl := of_string (grow (length t)) t.
  Definition opt_bytes_of (t : option bytes) : M (option bsl) :=
    match t with None => ret None | Some t => let! s := bytes_of t in ret (Some s) end.

  (** [j.body, err = F(...); return err]: the body afterwards and the error *)
  Definition assignM (m : M mupd) : M (bsl * option err) :=
    let! r := m in ret (match r with MDone out => (out, None) | MFail out e => (out, Some e) end).

  (** inter_add.go:235, 244, 298, 307 and 376, 385, 439, 448: the guards of the typed functions; [other] is what is
      returned: json, or nil in AddKeyValueString and InsertString *)
  Definition null_keyM (other : bsl) (key : bytes) (k : M mupd) : M mupd :=
    match key with [] => ret (MFail other ENullKey) | _ => k end.
  Definition neg_indexM (other : bsl) (index : Z) (k : M mupd) : M mupd :=
    if (index <? 0)%Z then ret (MFail other EIndexOutOfRange) else k.

  (** jin_object_add.go:110-125 [Store].  A nil value shows no bytes. *)
  Definition JO_StoreM (body : bsl) (key : bytes) (value : option bsl) (path : list bytes) : M (bsl * option err) :=
    let! t := look body in
    let v := match value with None => nil_slice | Some v => v end in
    match core t false (path ++ [key]) with
    | Panic => panic
    | Err e => if err_equal (Some e) 8 then assignM (AddKeyValueM grow body key value path) else ret (body, Some e)
    | Ok (_, start, end_) =>
        let! c := eval (at_pred t start) in
        let! both := eval (if c =? 34 then do d <- at_ t end_; Ok (d =? 34) else Ok false) in
        if (both : bool) then let! out := replaceM grow body v (pred start) (S end_) in ret (out, None)
        else let! out := replaceM grow body v start end_ in ret (out, None)
    end.

  Definition own_call (pf : bytes -> bool) (body : bsl) (c : jcall) : M (bsl * option err) :=
    let set t path := assignM (let! s := bytes_of t in SetM grow body s path) in   (* inter_set.go:27-50 *)
    let add t path := assignM (let! s := bytes_of t in AddM grow body s path) in   (* inter_add.go:318-371 *)
    let addkv other key t path := assignM (null_keyM other key (let! s := bytes_of t in AddKeyValueM grow body key (Some s) path)) in   (* 234-314 *)
    let insert other i t path := assignM (neg_indexM other i (let! s := bytes_of t in InsertM grow body i s path)) in   (* 375-455 *)
    let store key t path := assignM (let! s := bytes_of t in StoreM grow body key (Some s) path) in   (* jin_object_add.go:128-157 *)
    match c with
    | CAddKeyValue key value path => assignM (let! v := opt_bytes_of value in AddKeyValueM grow body key v path)
    | CAdd value path => add value path
    | CInsert index value path => assignM (let! s := bytes_of value in InsertM grow body index s path)
    | CAddKeyValueString key s path => addkv nil_slice key (formatType pf s) path
    | CAddKeyValueInt key n path => addkv body key (itoa n) path
    | CAddKeyValueFloat key t path => addkv body key t path
    | CAddKeyValueBool key v path => addkv body key (bool_text v) path
    | CAddString s path => add (formatType pf s) path
    | CAddInt n path => add (itoa n) path
    | CAddFloat t path => add t path
    | CAddBool v path => add (bool_text v) path
    | CInsertString index s path => insert nil_slice index (formatType pf s) path
    | CInsertInt index n path => insert body index (itoa n) path
    | CInsertFloat index t path => insert body index t path
    | CInsertBool index v path => insert body index (bool_text v) path
    | CStore key value path => let! v := opt_bytes_of value in JO_StoreM body key v path
    | CStoreString key s path => store key s path
    | CStoreInt key n path => store key (itoa n) path
    | CStoreFloat key t path => store key t path
    | CStoreBool key v path => store key (bool_text v) path
    | CSet value path => set value path
    | CSetString s path => set (formatType pf s) path
    | CSetInt n path => set (itoa n) path
    | CSetFloat t path => set t path
    | CSetBool v path => set (bool_text v) path
    | CSetKey newKey path => assignM (SetKeyM grow body newKey path)
    | CDelete path => assignM (DeleteM grow body path)
    end.

  Definition jo_callM (pf : bytes -> bool) (body : bsl) (c : mcall) : M (bsl * option err) :=
    match c with
    | MAddKeyValue key value path => assignM (AddKeyValueM grow body key value path)   (* jin_object_add.go:6-10 *)
    | MAdd value path => assignM (AddM grow body value path)   (* 13-17 *)
    | MInsert index value path => assignM (InsertM grow body index value path)   (* 20-24 *)
    | MStore key value path => JO_StoreM body key value path
    | MSet value path => assignM (SetM grow body value path)   (* jin_object_set.go:4-8 *)
    | MOwn c => own_call pf body c
    end.

  (** The body at the end, and the errors returned *)
  Fixpoint jo_runM (pf : bytes -> bool) (body : bsl) (cs : list mcall) : M (bsl * list (option err)) :=
    match cs with
    | [] => ret (body, [])
    | c :: cs => let! r := jo_callM pf body c in let! t := jo_runM pf (fst r) cs in ret (fst t, snd r :: snd t)
    end.

  (** jin_object.go:9-11 [NewJSON]; 14-16 [New] and 18-20 [JSON] hand over the slice itself; jin_object_get.go:4-6 [Get] *)
  Definition NewJSONM : M bsl := of_string (grow 2) (b "{}").
  Definition NewM (buffer : bsl) : bsl := buffer.
  Definition JO_JSONM (body : bsl) : bsl := body.
  Definition JO_GetM (body : bsl) (path : list bytes) : M (err + bsl) := GetM body path.
End JOMem.

(** What a call says, read off the memory *)
Definition shown (h : mem) (c : mcall) : jcall :=
  match c with
  | MAddKeyValue key value path => CAddKeyValue key (option_map (content h) value) path
  | MAdd value path => CAdd (content h value) path
  | MInsert index value path => CInsert index (content h value) path
  | MStore key value path => CStore key (option_map (content h) value) path
  | MSet value path => CSet (content h value) path
  | MOwn c => c
  end.
Definition args (c : mcall) : list bsl :=
  match c with
  | MAddKeyValue _ (Some v) _ | MStore _ (Some v) _ | MAdd v _ | MInsert _ v _ | MSet v _ => [v]
  | _ => []
  end.
