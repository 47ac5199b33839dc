(** The typed writers of inter_set.go and inter_add.go and the methods of JO once more, statement by statement;
    TypedGoProofs.v shows that they compute what the models in Typed.v and JO.v compute. *)
From Coq Require Import String.
From Verif Require Import GoStd Errors GoLang CoreGo IterGo UpdateGo MakeGo.
From Verif Require Typed JO.

Local Open Scope Z_scope.

(** [return f(...)] *)
Definition return_call {A : Type} (f : flow unit A) : cmd unit A := call (fun _ => f) (fun r => return_ (fun _ => r)).
(** [return f(..., []byte(formatType(value)), ...)]; [return f(..., []byte(strconv.FormatInt(value, base)), ...)] and FormatUint
    (Typed.v), which panic on a base above 36; [if value { return f(..., []byte("true"), ...) }; return f(..., []byte("false"), ...)].
    A float64 is the text that FormatFloat(value, 'f', -1, 64) makes of it. *)
Definition with_format {A : Type} (pf : bytes -> bool) (value : bytes) (f : bytes -> flow unit A) : cmd unit A :=
  call (fun _ => formatType_go pf value) (fun v => return_call (f v)).
Definition with_int {A : Type} (value : Z) (base : N) (f : bytes -> flow unit A) : cmd unit A :=
  read (fun _ => Typed.FormatInt value base) (fun v => return_call (f v)).
Definition with_uint {A : Type} (value : N) (base : N) (f : bytes -> flow unit A) : cmd unit A :=
  read (fun _ => Typed.FormatUint value base) (fun v => return_call (f v)).
Definition with_bool {A : Type} (value : bool) (f : bytes -> flow unit A) : cmd unit A :=
  if_ (fun _ => value) (return_call (f (b "true"))) pass ;; return_call (f (b "false")).
(** [if len(key) == 0 { return json, errNullKey() }] and [if index < 0 { return json, errIndexOutOfRange() }]; nil is the empty text *)
Definition key_given (json key : bytes) : cmd unit out := if_ (fun _ => zlen key =? 0) (return_ (fun _ => (json, Some ENullKey))) pass.
Definition index_given (json : bytes) (index : Z) : cmd unit out := if_ (fun _ => index <? 0) (return_ (fun _ => (json, Some EIndexOutOfRange))) pass.

Section TypedGo.
  Variables (fuel : nat) (pf : bytes -> bool) (json : bytes).


  (** ** Set *)
  (** inter_set.go:27-29 [SetString] *)
  Definition SetString_t (value : bytes) (path : list bytes) : flow unit out := func (with_format pf value (fun v => Set_go fuel json v path)) tt.
  (** inter_set.go:33-35 [SetInt] *)
  Definition SetInt_t (value : Z) (path : list bytes) : flow unit out := func (return_call (Set_go fuel json (itoa value) path)) tt.
  (** inter_set.go:39-41 [SetFloat] *)
  Definition SetFloat_t (value : bytes) (path : list bytes) : flow unit out := func (return_call (Set_go fuel json value path)) tt.
  (** inter_set.go:45-50 [SetBool] *)
  Definition SetBool_t (value : bool) (path : list bytes) : flow unit out := func (with_bool value (fun v => Set_go fuel json v path)) tt.

  (** ** Store *)
  (** inter_set.go:110-112 [StoreString] *)
  Definition StoreString_t (key : bytes) (value : bytes) (path : list bytes) : flow unit out := func (with_format pf value (fun v => Store_go fuel json key (Some v) path)) tt.
  (** inter_set.go:116-118 [StoreInt] *)
  Definition StoreInt_t (key : bytes) (value : Z) (path : list bytes) : flow unit out := func (return_call (Store_go fuel json key (Some (itoa value)) path)) tt.
  (** inter_set.go:122-124 [StoreFloat] *)
  Definition StoreFloat_t (key : bytes) (value : bytes) (path : list bytes) : flow unit out := func (return_call (Store_go fuel json key (Some value) path)) tt.
  (** inter_set.go:128-133 [StoreBool] *)
  Definition StoreBool_t (key : bytes) (value : bool) (path : list bytes) : flow unit out := func (with_bool value (fun v => Store_go fuel json key (Some v) path)) tt.

  (** ** AddKeyValue *)
  (** inter_add.go:234-239 [AddKeyValueString] *)
  Definition AddKeyValueString_t (key : bytes) (value : bytes) (path : list bytes) : flow unit out := func (key_given [] key ;; with_format pf value (fun v => AddKeyValue_go fuel json key (Some v) path)) tt.
  (** inter_add.go:243-248 [AddKeyValueInt] *)
  Definition AddKeyValueInt_t (key : bytes) (value : Z) (path : list bytes) : flow unit out := func (key_given json key ;; return_call (AddKeyValue_go fuel json key (Some (itoa value)) path)) tt.
  (** inter_add.go:252-257 [AddKeyValueUint] *)
  Definition AddKeyValueUint_t (key : bytes) (value : N) (path : list bytes) : flow unit out := func (key_given json key ;; with_uint value 64 (fun v => AddKeyValue_go fuel json key (Some v) path)) tt.
  (** inter_add.go:261-266 [AddKeyValueInt32] *)
  Definition AddKeyValueInt32_t (key : bytes) (value : Z) (path : list bytes) : flow unit out := func (key_given json key ;; with_int value 32 (fun v => AddKeyValue_go fuel json key (Some v) path)) tt.
  (** inter_add.go:270-275 [AddKeyValueInt64] *)
  Definition AddKeyValueInt64_t (key : bytes) (value : Z) (path : list bytes) : flow unit out := func (key_given json key ;; with_int value 64 (fun v => AddKeyValue_go fuel json key (Some v) path)) tt.
  (** inter_add.go:279-284 [AddKeyValueUint32] *)
  Definition AddKeyValueUint32_t (key : bytes) (value : N) (path : list bytes) : flow unit out := func (key_given json key ;; with_uint value 32 (fun v => AddKeyValue_go fuel json key (Some v) path)) tt.
  (** inter_add.go:288-293 [AddKeyValueUint64] *)
  Definition AddKeyValueUint64_t (key : bytes) (value : N) (path : list bytes) : flow unit out := func (key_given json key ;; with_uint value 64 (fun v => AddKeyValue_go fuel json key (Some v) path)) tt.
  (** inter_add.go:297-302 [AddKeyValueFloat] *)
  Definition AddKeyValueFloat_t (key : bytes) (value : bytes) (path : list bytes) : flow unit out := func (key_given json key ;; return_call (AddKeyValue_go fuel json key (Some value) path)) tt.
  (** inter_add.go:306-314 [AddKeyValueBool] *)
  Definition AddKeyValueBool_t (key : bytes) (value : bool) (path : list bytes) : flow unit out := func (key_given json key ;; with_bool value (fun v => AddKeyValue_go fuel json key (Some v) path)) tt.

  (** ** Add *)
  (** inter_add.go:318-320 [AddString] *)
  Definition AddString_t (value : bytes) (path : list bytes) : flow unit out := func (with_format pf value (fun v => Add_go fuel json v path)) tt.
  (** inter_add.go:324-326 [AddInt] *)
  Definition AddInt_t (value : Z) (path : list bytes) : flow unit out := func (return_call (Add_go fuel json (itoa value) path)) tt.
  (** inter_add.go:330-332 [AddInt32] *)
  Definition AddInt32_t (value : Z) (path : list bytes) : flow unit out := func (with_int value 32 (fun v => Add_go fuel json v path)) tt.
  (** inter_add.go:336-338 [AddInt64] *)
  Definition AddInt64_t (value : Z) (path : list bytes) : flow unit out := func (with_int value 64 (fun v => Add_go fuel json v path)) tt.
  (** inter_add.go:342-344 [AddUint] *)
  Definition AddUint_t (value : N) (path : list bytes) : flow unit out := func (with_uint value 64 (fun v => Add_go fuel json v path)) tt.
  (** inter_add.go:348-350 [AddUint32] *)
  Definition AddUint32_t (value : N) (path : list bytes) : flow unit out := func (with_uint value 32 (fun v => Add_go fuel json v path)) tt.
  (** inter_add.go:354-356 [AddUint64] *)
  Definition AddUint64_t (value : N) (path : list bytes) : flow unit out := func (with_uint value 64 (fun v => Add_go fuel json v path)) tt.
  (** inter_add.go:360-362 [AddFloat] *)
  Definition AddFloat_t (value : bytes) (path : list bytes) : flow unit out := func (return_call (Add_go fuel json value path)) tt.
  (** inter_add.go:366-371 [AddBool] *)
  Definition AddBool_t (value : bool) (path : list bytes) : flow unit out := func (with_bool value (fun v => Add_go fuel json v path)) tt.

  (** ** Insert *)
  (** inter_add.go:375-380 [InsertString] *)
  Definition InsertString_t (index : Z) (value : bytes) (path : list bytes) : flow unit out := func (index_given [] index ;; with_format pf value (fun v => Insert_go fuel json index v path)) tt.
  (** inter_add.go:384-389 [InsertInt] *)
  Definition InsertInt_t (index : Z) (value : Z) (path : list bytes) : flow unit out := func (index_given json index ;; return_call (Insert_go fuel json index (itoa value) path)) tt.
  (** inter_add.go:393-398 [InsertInt32] *)
  Definition InsertInt32_t (index : Z) (value : Z) (path : list bytes) : flow unit out := func (index_given json index ;; with_int value 32 (fun v => Insert_go fuel json index v path)) tt.
  (** inter_add.go:402-407 [InsertInt64] *)
  Definition InsertInt64_t (index : Z) (value : Z) (path : list bytes) : flow unit out := func (index_given json index ;; with_int value 64 (fun v => Insert_go fuel json index v path)) tt.
  (** inter_add.go:411-416 [InsertUint] *)
  Definition InsertUint_t (index : Z) (value : N) (path : list bytes) : flow unit out := func (index_given json index ;; with_uint value 64 (fun v => Insert_go fuel json index v path)) tt.
  (** inter_add.go:420-425 [InsertUint32] *)
  Definition InsertUint32_t (index : Z) (value : N) (path : list bytes) : flow unit out := func (index_given json index ;; with_uint value 32 (fun v => Insert_go fuel json index v path)) tt.
  (** inter_add.go:429-434 [InsertUint64] *)
  Definition InsertUint64_t (index : Z) (value : N) (path : list bytes) : flow unit out := func (index_given json index ;; with_uint value 64 (fun v => Insert_go fuel json index v path)) tt.
  (** inter_add.go:438-443 [InsertFloat] *)
  Definition InsertFloat_t (index : Z) (value : bytes) (path : list bytes) : flow unit out := func (index_given json index ;; return_call (Insert_go fuel json index value path)) tt.
  (** inter_add.go:447-455 [InsertBool] *)
  Definition InsertBool_t (index : Z) (value : bool) (path : list bytes) : flow unit out := func (index_given json index ;; with_bool value (fun v => Insert_go fuel json index v path)) tt.
End TypedGo.

(** ** JO

    The state is [j.body]; a method returns an error, and leaves the body *)
Section JOGo.
  Variables (fuel : nat) (pf : bytes -> bool).
  (** [j.body, err = f(j.body, ...); return err] *)
  Definition assigned (f : bytes -> flow unit out) : cmd bytes out :=
    call f (fun r => set_ (fun _ => fst r) ;; return_ (fun body => (body, snd r))).
  (** [j.body = replace(j.body, value, start, end); return nil] *)
  Definition body_replaced (value : bytes) (start end_ : Z) : cmd bytes out :=
    call (fun body => replace_go body value start end_) (fun j => set_ (fun _ => j)) ;; return_ (fun body => (body, None)).
  (** jin_object_add.go:110-125 [Store] *)
  Definition JO_Store_go (body key : bytes) (value : option bytes) (path : list bytes) : flow unit out :=
    let v := match value with None => [] | Some v => v end in
    func (
      call (fun body => returns (core_go fuel body false (path ++ [key]))) (fun r =>
        let '(_, start, end_, e) := r in
        match e with
        | Some e =>
            if_ (fun _ => err_equal (Some e) 8) (assigned (fun body => AddKeyValue_go fuel body key value path)) pass ;;
            return_ (fun body => (body, Some e))
        | None => pass
        end ;;
        read (fun body => and_also (is_quote body (start - 1)) (is_quote body end_)) (fun quoted =>
        if_ (fun _ => quoted) (body_replaced v (start - 1) (end_ + 1)) pass) ;;
        body_replaced v start end_)) body.

  (** The methods: jin_object_add.go, jin_object_set.go, jin_object_others.go:4-8 *)
  Definition do_j (c : JO.jcall) (body : bytes) : flow unit out :=
    let call_ f := func (assigned f) body in
    match c with
    | JO.CAddKeyValue key value path => call_ (fun body => AddKeyValue_go fuel body key value path)   (* jin_object_add.go:6-10 *)
    | JO.CAdd value path => call_ (fun body => Add_go fuel body value path)   (* jin_object_add.go:13-17 *)
    | JO.CInsert index value path => call_ (fun body => Insert_go fuel body index value path)   (* jin_object_add.go:20-24 *)
    | JO.CAddKeyValueString key s path => call_ (fun body => AddKeyValueString_t fuel pf body key s path)   (* jin_object_add.go:27-31 *)
    | JO.CAddKeyValueInt key n path => call_ (fun body => AddKeyValueInt_t fuel body key n path)   (* jin_object_add.go:34-38 *)
    | JO.CAddKeyValueFloat key t path => call_ (fun body => AddKeyValueFloat_t fuel body key t path)   (* jin_object_add.go:41-45 *)
    | JO.CAddKeyValueBool key v path => call_ (fun body => AddKeyValueBool_t fuel body key v path)   (* jin_object_add.go:48-52 *)
    | JO.CAddString s path => call_ (fun body => AddString_t fuel pf body s path)   (* jin_object_add.go:55-59 *)
    | JO.CAddInt n path => call_ (fun body => AddInt_t fuel body n path)   (* jin_object_add.go:62-66 *)
    | JO.CAddFloat t path => call_ (fun body => AddFloat_t fuel body t path)   (* jin_object_add.go:69-73 *)
    | JO.CAddBool v path => call_ (fun body => AddBool_t fuel body v path)   (* jin_object_add.go:76-80 *)
    | JO.CInsertString index s path => call_ (fun body => InsertString_t fuel pf body index s path)   (* jin_object_add.go:83-87 *)
    | JO.CInsertInt index n path => call_ (fun body => InsertInt_t fuel body index n path)   (* jin_object_add.go:90-94 *)
    | JO.CInsertFloat index t path => call_ (fun body => InsertFloat_t fuel body index t path)   (* jin_object_add.go:97-101 *)
    | JO.CInsertBool index v path => call_ (fun body => InsertBool_t fuel body index v path)   (* jin_object_add.go:104-108 *)
    | JO.CStore key value path => JO_Store_go body key value path
    | JO.CStoreString key s path => call_ (fun body => Store_go fuel body key (Some s) path)   (* jin_object_add.go:128-132 *)
    | JO.CStoreInt key n path => call_ (fun body => Store_go fuel body key (Some (itoa n)) path)   (* jin_object_add.go:135-139 *)
    | JO.CStoreFloat key t path => call_ (fun body => Store_go fuel body key (Some t) path)   (* jin_object_add.go:142-146 *)
    | JO.CStoreBool key v path =>   (* jin_object_add.go:149-157 *)
        func (
          if_ (fun _ => v) (assigned (fun body => Store_go fuel body key (Some (b "true")) path)) pass ;;
          assigned (fun body => Store_go fuel body key (Some (b "false")) path)) body
    | JO.CSet value path => call_ (fun body => Set_go fuel body value path)   (* jin_object_set.go:4-8 *)
    | JO.CSetString s path => call_ (fun body => SetString_t fuel pf body s path)   (* jin_object_set.go:11-15 *)
    | JO.CSetInt n path => call_ (fun body => SetInt_t fuel body n path)   (* jin_object_set.go:18-22 *)
    | JO.CSetFloat t path => call_ (fun body => SetFloat_t fuel body t path)   (* jin_object_set.go:25-29 *)
    | JO.CSetBool v path => call_ (fun body => SetBool_t fuel body v path)   (* jin_object_set.go:32-36 *)
    | JO.CSetKey newKey path => call_ (fun body => SetKey_go fuel body newKey path)   (* jin_object_set.go:39-43 *)
    | JO.CDelete path => call_ (fun body => Delete_go fuel body path)   (* jin_object_others.go:4-8 *)
    end.
  (** Calls one after another: the body at the end and the errors *)
  Fixpoint calls_j (cs : list JO.jcall) (body : bytes) : flow unit (bytes * list (option err)) :=
    match cs with
    | [] => Ret (body, [])
    | c :: cs => match do_j c body with
                 | Ret (body, e) => match calls_j cs body with Ret (out, es) => Ret (out, e :: es) | Out => Out | _ => Pan end
                 | Out => Out
                 | _ => Pan
                 end
    end.
End JOGo.
