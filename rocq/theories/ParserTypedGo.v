(** The typed methods of Parser once more, statement by statement, over the transcriptions in ParserGo.v;
    ParserTypedGoProofs.v shows that they compute what the models in Parser.v compute. *)
From Coq Require Import String.
From Verif Require Import GoStd Core Errors Api Typed Parser SpecPtr Pointers GoLang MakeGo SplitGo ParserGo TypedGo AsWritten.

Local Open Scope Z_scope.

(** ** Readers *)
Section Readers.
  Variables (fuel : nat) (L : lib) (p : qparser) (path : list bytes).
  (** parse_get.go:50-56 [GetString]; [string(val)] is [val] *)
  Definition GetString_p : flow unit (bytes * option err) :=
    func (
      call (fun _ => Get_p L p path) (fun r =>
        let '(val, e) := r in
        match e with Some e => return_ (fun _ => ([], Some e)) | None => pass end ;;
        return_ (fun _ => (val, e)))) tt.
  (** parse_get.go:61-71 [GetInt], 76-86 [GetFloat], 91-103 [GetBool], 108-125 [GetStringArray], 130-191 [GetIntArray], 196-257 [GetFloatArray],
      262-333 [GetBoolArray]: the text of inter_get.go with another call of GetString *)
  Definition GetInt_p := GetInt_of GetString_p.
  Definition GetFloat_p {F : Type} (pf : bytes -> option F) (minus1 : F) := GetFloat_of pf minus1 GetString_p.
  Definition GetBool_p := GetBool_of GetString_p.
  Definition GetStringArray_p := GetStringArray_of fuel GetString_p.
  Definition GetIntArray_p := GetIntArray_of fuel GetString_p.
  Definition GetFloatArray_p {F : Type} (pf : bytes -> option F) := GetFloatArray_of fuel pf GetString_p.
  Definition GetBoolArray_p := GetBoolArray_of fuel GetString_p.
End Readers.

(** ** Updates

    The calls; a float64 is given by its text *)
Inductive tcall : Type :=
| TCall (c : pcall)
| TSetString (v : bytes) (path : list bytes)
| TSetInt (v : Z) (path : list bytes)
| TSetFloat (v : bytes) (path : list bytes)
| TSetBool (v : bool) (path : list bytes)
| TAddKeyValueString (key v : bytes) (path : list bytes)
| TAddKeyValueInt (key : bytes) (v : Z) (path : list bytes)
| TAddKeyValueFloat (key v : bytes) (path : list bytes)
| TAddKeyValueBool (key : bytes) (v : bool) (path : list bytes)
| TAddString (v : bytes) (path : list bytes)
| TAddInt (v : Z) (path : list bytes)
| TAddFloat (v : bytes) (path : list bytes)
| TAddBool (v : bool) (path : list bytes)
| TInsertString (index : Z) (v : bytes) (path : list bytes)
| TInsertInt (index v : Z) (path : list bytes)
| TInsertFloat (index : Z) (v : bytes) (path : list bytes)
| TInsertBool (index : Z) (v : bool) (path : list bytes).

Section Updates.
  Variables (L : lib) (pf : bytes -> bool) (p : qparser).
  (** [if len(key) == 0 { return errNullKey() }], [if index < 0 { return errIndexOutOfRange() }] *)
  Definition p_key_given (key : bytes) : cmd unit told := if_ (fun _ => zlen key =? 0) (return_ (fun _ => (p, Some ENullKey))) pass.
  Definition p_index_given (index : Z) : cmd unit told := if_ (fun _ => index <? 0) (return_ (fun _ => (p, Some EIndexOutOfRange))) pass.

  (** parse_set.go:55-60 [SetString] *)
  Definition SetString_p (newValue : bytes) (path : list bytes) : flow unit told :=
    func (
      read (fun _ => do c <- zat newValue 0; if (c =? 34)%N then Ok false else do d <- zat newValue (zlen newValue - 1); Ok (negb (d =? 34)%N)) (fun bare =>
      if_ (fun _ => bare) (return_call (Set_p L p (b """" ++ newValue ++ b """") path)) pass) ;;
      return_call (Set_p L p newValue path)) tt.
  Definition do_t (c : tcall) : flow unit told :=
    match c with
    | TCall c => do_p L c p
    | TSetString v path => SetString_p v path
    | TSetInt v path => func (return_call (Set_p L p (itoa v) path)) tt   (* parse_set.go:64-66 *)
    | TSetFloat v path => func (return_call (Set_p L p v path)) tt   (* parse_set.go:70-72 *)
    | TSetBool v path => func (with_bool v (fun v => Set_p L p v path)) tt   (* parse_set.go:76-81 *)
    | TAddKeyValueString key v path => func (p_key_given key ;; with_format pf v (fun v => AddKeyValue_p L p key v path)) tt   (* parse_add.go:343-348 *)
    | TAddKeyValueInt key v path => func (p_key_given key ;; return_call (AddKeyValue_p L p key (itoa v) path)) tt   (* parse_add.go:352-357 *)
    | TAddKeyValueFloat key v path => func (p_key_given key ;; return_call (AddKeyValue_p L p key v path)) tt   (* parse_add.go:361-366 *)
    | TAddKeyValueBool key v path => func (p_key_given key ;; with_bool v (fun v => AddKeyValue_p L p key v path)) tt   (* parse_add.go:370-378 *)
    | TAddString v path => func (with_format pf v (fun v => Add_p L p v path)) tt   (* parse_add.go:382-384 *)
    | TAddInt v path => func (return_call (Add_p L p (itoa v) path)) tt   (* parse_add.go:388-390 *)
    | TAddFloat v path => func (return_call (Add_p L p v path)) tt   (* parse_add.go:394-396 *)
    | TAddBool v path => func (with_bool v (fun v => Add_p L p v path)) tt   (* parse_add.go:400-405 *)
    | TInsertString index v path => func (p_index_given index ;; with_format pf v (fun v => Insert_p L p index v path)) tt   (* parse_add.go:409-414 *)
    | TInsertInt index v path => func (p_index_given index ;; return_call (Insert_p L p index (itoa v) path)) tt   (* parse_add.go:418-423 *)
    | TInsertFloat index v path => func (p_index_given index ;; return_call (Insert_p L p index v path)) tt   (* parse_add.go:427-432 *)
    | TInsertBool index v path => func (p_index_given index ;; with_bool v (fun v => Insert_p L p index v path)) tt   (* parse_add.go:436-444 *)
    end.
End Updates.

(** A history: the Parser at the end and the errors returned *)
Fixpoint calls_t (L : lib) (pf : bytes -> bool) (cs : list tcall) (p : qparser) : flow unit (qparser * list (option err)) :=
  match cs with
  | [] => Ret (p, [])
  | c :: r => match do_t L pf p c with
              | Ret (p, e) => match calls_t L pf r p with Ret (p', es) => Ret (p', e :: es) | Out => Out | _ => Pan end
              | Out => Out
              | _ => Pan
              end
  end.

(** The same calls of the models *)
Definition t_do (pf : bytes -> bool) (c : tcall) (p : parser) : pres :=
  match c with
  | TCall c => p_do c p
  | TSetString v path => P_SetString p v path
  | TSetInt v path => P_SetInt p v path
  | TSetFloat v path => P_SetFloat p v path
  | TSetBool v path => P_SetBool p v path
  | TAddKeyValueString key v path => P_AddKeyValueString pf p key v path
  | TAddKeyValueInt key v path => P_AddKeyValueInt p key v path
  | TAddKeyValueFloat key v path => P_AddKeyValueFloat p key v path
  | TAddKeyValueBool key v path => P_AddKeyValueBool p key v path
  | TAddString v path => P_AddString pf p v path
  | TAddInt v path => P_AddInt p v path
  | TAddFloat v path => P_AddFloat p v path
  | TAddBool v path => P_AddBool p v path
  | TInsertString index v path => P_InsertString pf p index v path
  | TInsertInt index v path => P_InsertInt p index v path
  | TInsertFloat index v path => P_InsertFloat p index v path
  | TInsertBool index v path => P_InsertBool p index v path
  end.
Fixpoint t_calls (pf : bytes -> bool) (cs : list tcall) (p : parser) : option (parser * list (option err)) :=
  match cs with
  | [] => Some (p, [])
  | c :: r => match t_do pf c p with
              | PRet p e => match t_calls pf r p with Some (p', es) => Some (p', e :: es) | None => None end
              | PPanic => None
              end
  end.

(** Made of bytes, for the typed calls *)
Definition tcall_octets (c : tcall) : Prop :=
  match c with
  | TCall c => pcall_octets c
  | TSetString v _ | TSetFloat v _ | TAddString v _ | TAddFloat v _ | TInsertString _ v _ | TInsertFloat _ v _ => octets v
  | TAddKeyValueString k v _ | TAddKeyValueFloat k v _ => octets k /\ octets v
  | TAddKeyValueInt k _ _ | TAddKeyValueBool k _ _ => octets k
  | TSetInt _ _ | TSetBool _ _ | TAddInt _ _ | TAddBool _ _ | TInsertInt _ _ _ | TInsertBool _ _ _ => True
  end.
