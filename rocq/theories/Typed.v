(** Model of the typed variants of the updating functions (inter_set.go, inter_add.go) and of
    [formatType] (utils.go).

    Two pieces of strconv are parameters: [pf] says which strings strconv.ParseFloat(_, 64) accepts without
    an error, and a float64 argument is given by its text, the result of
    strconv.FormatFloat(value, 'f', -1, 64). *)
From Coq Require Import String.
From Verif Require Export GoStd Core Errors Api.

Local Open Scope N_scope.

(** ** strconv.FormatInt and strconv.FormatUint: digits 0-9a-z; a base outside 2..36 panics. *)
Definition digit_of (d : N) : N := if d <? 10 then 48 + d else 87 + d.

Fixpoint format_digits (fuel : nat) (base n : N) (acc : bytes) : bytes :=
  match fuel with
  | O => acc
  | S f => let acc := digit_of (n mod base) :: acc in
           if n <? base then acc else format_digits f base (n / base) acc
  end.
(** A number has at most as many digits as bits. *)
Definition FormatUint (n : N) (base : N) : res bytes :=
  if (2 <=? base) && (base <=? 36) then Ok (format_digits (S (N.size_nat n)) base n []) else Panic.
Definition FormatInt (z : Z) (base : N) : res bytes :=
  if (z <? 0)%Z then do s <- FormatUint (Z.to_N (- z)) base; Ok (45 :: s) else FormatUint (Z.to_N z) base.

(** ** utils.go:54-102 *)

(** utils.go:90-92 [isBool] *)
Definition isBool (val : bytes) : bool := bytes_eqb val (b "true") || bytes_eqb val (b "false").

(** utils.go:99-102 [isInt] *)
Definition isInt (val : bytes) : bool := match parse_int 32 val with Some _ => true | None => false end.

(** The string in quotes, as it is: lines 63 and 87. *)
Definition quote (val : bytes) : bytes := 34 :: val ++ [34].

(** utils.go:54-88 [formatType] *)
Definition formatType (pf : bytes -> bool) (val : bytes) : bytes :=
  match val with
  | [] => b """"""
  | start :: r =>
      if isBool val then val
      else if isInt val then
        if (start =? 48) && (1 <? length val)%nat then quote val else val
      else if pf val then val
      else if bytes_eqb val (b "null") then val
      else
        let end_ := last val 0 in
        if (start =? 34) && (end_ =? 34) then val
        else if (start =? 91) && (end_ =? 93) then val
        else if (start =? 123) && (end_ =? 125) then val
        else quote val
  end.

Definition bool_text (v : bool) : bytes := if v then b "true" else b "false".

(** ** Set: inter_set.go *)
(** inter_set.go:27-29 [SetString] *)
Definition SetString (pf : bytes -> bool) (json newValue : bytes) (path : list bytes) : upd :=
  Set_ json (formatType pf newValue) path.

(** inter_set.go:33-35 [SetInt] *)
Definition SetInt (json : bytes) (newValue : Z) (path : list bytes) : upd :=
  Set_ json (itoa newValue) path.

(** inter_set.go:39-41 [SetFloat] *)
Definition SetFloat (json newValue : bytes) (path : list bytes) : upd :=
  Set_ json newValue path.

(** inter_set.go:45-50 [SetBool] *)
Definition SetBool (json : bytes) (newValue : bool) (path : list bytes) : upd :=
  Set_ json (bool_text newValue) path.

(** ** Store: inter_set.go *)
(** inter_set.go:110-112 [StoreString] *)
Definition StoreString (pf : bytes -> bool) (json key value : bytes) (path : list bytes) : upd :=
  Store json key (Some (formatType pf value)) path.

(** inter_set.go:116-118 [StoreInt] *)
Definition StoreInt (json key : bytes) (value : Z) (path : list bytes) : upd :=
  Store json key (Some (itoa value)) path.

(** inter_set.go:122-124 [StoreFloat] *)
Definition StoreFloat (json key value : bytes) (path : list bytes) : upd :=
  Store json key (Some value) path.

(** inter_set.go:128-133 [StoreBool] *)
Definition StoreBool (json key : bytes) (value : bool) (path : list bytes) : upd :=
  Store json key (Some (bool_text value)) path.

(** ** AddKeyValue: inter_add.go.  [null_key] is the guard [if len(key) == 0 { return json, errNullKey() }]. *)
Definition null_key (json key : bytes) (k : upd) : upd :=
  match key with [] => Fail (Some json) ENullKey | _ => k end.

(** inter_add.go:234-239 [AddKeyValueString] *)
Definition AddKeyValueString (pf : bytes -> bool) (json key value : bytes) (path : list bytes) : upd :=
  match key with [] => Fail None ENullKey | _ => AddKeyValue json key (Some (formatType pf value)) path end.

(** inter_add.go:243-248 [AddKeyValueInt] *)
Definition AddKeyValueInt (json key : bytes) (value : Z) (path : list bytes) : upd :=
  null_key json key (AddKeyValue json key (Some (itoa value)) path).

(** inter_add.go:252-257 [AddKeyValueUint] *)
Definition AddKeyValueUint (json key : bytes) (value : N) (path : list bytes) : upd :=
  null_key json key (pbind (FormatUint value 64) (fun v => AddKeyValue json key (Some v) path)).

(** inter_add.go:261-266 [AddKeyValueInt32] *)
Definition AddKeyValueInt32 (json key : bytes) (value : Z) (path : list bytes) : upd :=
  null_key json key (pbind (FormatInt value 32) (fun v => AddKeyValue json key (Some v) path)).

(** inter_add.go:270-275 [AddKeyValueInt64] *)
Definition AddKeyValueInt64 (json key : bytes) (value : Z) (path : list bytes) : upd :=
  null_key json key (pbind (FormatInt value 64) (fun v => AddKeyValue json key (Some v) path)).

(** inter_add.go:279-284 [AddKeyValueUint32] *)
Definition AddKeyValueUint32 (json key : bytes) (value : N) (path : list bytes) : upd :=
  null_key json key (pbind (FormatUint value 32) (fun v => AddKeyValue json key (Some v) path)).

(** inter_add.go:288-293 [AddKeyValueUint64] *)
Definition AddKeyValueUint64 (json key : bytes) (value : N) (path : list bytes) : upd :=
  null_key json key (pbind (FormatUint value 64) (fun v => AddKeyValue json key (Some v) path)).

(** inter_add.go:297-302 [AddKeyValueFloat] *)
Definition AddKeyValueFloat (json key value : bytes) (path : list bytes) : upd :=
  null_key json key (AddKeyValue json key (Some value) path).

(** inter_add.go:306-314 [AddKeyValueBool] *)
Definition AddKeyValueBool (json key : bytes) (value : bool) (path : list bytes) : upd :=
  null_key json key (AddKeyValue json key (Some (bool_text value)) path).

(** ** Add: inter_add.go *)
(** inter_add.go:318-320 [AddString] *)
Definition AddString (pf : bytes -> bool) (json value : bytes) (path : list bytes) : upd :=
  Add_ json (formatType pf value) path.

(** inter_add.go:324-326 [AddInt] *)
Definition AddInt (json : bytes) (value : Z) (path : list bytes) : upd :=
  Add_ json (itoa value) path.

(** inter_add.go:330-332 [AddInt32] *)
Definition AddInt32 (json : bytes) (value : Z) (path : list bytes) : upd :=
  pbind (FormatInt value 32) (fun v => Add_ json v path).

(** inter_add.go:336-338 [AddInt64] *)
Definition AddInt64 (json : bytes) (value : Z) (path : list bytes) : upd :=
  pbind (FormatInt value 64) (fun v => Add_ json v path).

(** inter_add.go:342-344 [AddUint] *)
Definition AddUint (json : bytes) (value : N) (path : list bytes) : upd :=
  pbind (FormatUint value 64) (fun v => Add_ json v path).

(** inter_add.go:348-350 [AddUint32] *)
Definition AddUint32 (json : bytes) (value : N) (path : list bytes) : upd :=
  pbind (FormatUint value 32) (fun v => Add_ json v path).

(** inter_add.go:354-356 [AddUint64] *)
Definition AddUint64 (json : bytes) (value : N) (path : list bytes) : upd :=
  pbind (FormatUint value 64) (fun v => Add_ json v path).

(** inter_add.go:360-362 [AddFloat] *)
Definition AddFloat (json value : bytes) (path : list bytes) : upd :=
  Add_ json value path.

(** inter_add.go:366-371 [AddBool] *)
Definition AddBool (json : bytes) (value : bool) (path : list bytes) : upd :=
  Add_ json (bool_text value) path.

(** ** Insert: inter_add.go.  [neg_index] is the guard [if index < 0 { return json, errIndexOutOfRange() }]. *)
Definition neg_index (json : bytes) (index : Z) (k : upd) : upd :=
  if (index <? 0)%Z then Fail (Some json) EIndexOutOfRange else k.

(** inter_add.go:375-380 [InsertString] *)
Definition InsertString (pf : bytes -> bool) (json : bytes) (index : Z) (value : bytes) (path : list bytes) : upd :=
  if (index <? 0)%Z then Fail None EIndexOutOfRange else Insert json index (formatType pf value) path.

(** inter_add.go:384-389 [InsertInt] *)
Definition InsertInt (json : bytes) (index value : Z) (path : list bytes) : upd :=
  neg_index json index (Insert json index (itoa value) path).

(** inter_add.go:393-398 [InsertInt32] *)
Definition InsertInt32 (json : bytes) (index : Z) (value : Z) (path : list bytes) : upd :=
  neg_index json index (pbind (FormatInt value 32) (fun v => Insert json index v path)).

(** inter_add.go:402-407 [InsertInt64] *)
Definition InsertInt64 (json : bytes) (index : Z) (value : Z) (path : list bytes) : upd :=
  neg_index json index (pbind (FormatInt value 64) (fun v => Insert json index v path)).

(** inter_add.go:411-416 [InsertUint] *)
Definition InsertUint (json : bytes) (index : Z) (value : N) (path : list bytes) : upd :=
  neg_index json index (pbind (FormatUint value 64) (fun v => Insert json index v path)).

(** inter_add.go:420-425 [InsertUint32] *)
Definition InsertUint32 (json : bytes) (index : Z) (value : N) (path : list bytes) : upd :=
  neg_index json index (pbind (FormatUint value 32) (fun v => Insert json index v path)).

(** inter_add.go:429-434 [InsertUint64] *)
Definition InsertUint64 (json : bytes) (index : Z) (value : N) (path : list bytes) : upd :=
  neg_index json index (pbind (FormatUint value 64) (fun v => Insert json index v path)).

(** inter_add.go:438-443 [InsertFloat] *)
Definition InsertFloat (json : bytes) (index : Z) (value : bytes) (path : list bytes) : upd :=
  neg_index json index (Insert json index value path).

(** inter_add.go:447-455 [InsertBool] *)
Definition InsertBool (json : bytes) (index : Z) (value : bool) (path : list bytes) : upd :=
  neg_index json index (Insert json index (bool_text value) path).
