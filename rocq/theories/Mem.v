(** The functions of utils.go, inter_get.go, inter_set.go, inter_delete.go, inter_add.go and others.go that take and return
    byte slices, on the memory of GoMem.v.  What a function decides (positions, errors) is computed from the bytes the slices
    show, by the definitions of Core.v and Api.v; every allocation, sub-slice, append, copy and assignment is explicit. *)
From Coq Require Import String.
From Verif Require Import GoStd Core Errors Api Format GoMem.

Local Open Scope N_scope.

(** Result of a function returning ([]byte, error). *)
Inductive mupd : Type :=
| MDone (out : bsl)
| MFail (out : bsl) (e : err).

(** [x, err := r; if err != nil { return json, err }; k] *)
Definition mubind {A} (json : bsl) (r : res A) (k : A -> M mupd) : M mupd :=
  match r with Ok a => k a | Err e => ret (MFail json e) | Panic => panic end.

Section Mem.
  Variable grow : nat -> nat.   (* spare capacity after a reallocating append or a conversion from string *)

  (** utils.go:8-14 [replace] *)
  Definition replaceM (json new : bsl) (s e : nat) : M bsl :=
    let! out := make_cap (Z.of_nat (b_len json) - Z.of_nat e + Z.of_nat s + Z.of_nat (b_len new)) in
    let! left := sub_to json s in
    let! out := append_slice grow out left in
    let! out := append_slice grow out new in
    let! right := sub_from json e in
    append_slice grow out right.

  (** [json = replace(json, new, s, e); return json, nil] *)
  Definition done_replaceM (json new : bsl) (s e : nat) : M mupd :=
    let! out := replaceM json new s e in ret (MDone out).

  (** inter_get.go:12-21 [Get] *)
  Definition GetM (json : bsl) (path : list bytes) : M (err + bsl) :=
    match path with
    | [] => ret (inr json)
    | _ => let! t := look json in
           match core t false path with
           | Panic => panic
           | Err e => ret (inl e)
           | Ok (_, s, e) => let! v := sub json s e in ret (inr v)
           end
    end.

  (** inter_set.go:19-22 and 102-105 *)
  Definition set_spanM (json new : bsl) (s e : nat) : M mupd :=
    let! t := look json in
    let! c := eval (at_pred t s) in
    if c =? 34 then
      let! d := eval (at_ t e) in
      if d =? 34 then done_replaceM json new (pred s) (S e) else done_replaceM json new s e
    else done_replaceM json new s e.

  (** inter_set.go:11-23 [Set] *)
  Definition SetM (json new : bsl) (path : list bytes) : M mupd :=
    match path with
    | [] => ret (MFail json ENullPath)
    | _ => let! t := look json in mubind json (core t false path) (fun '(_, s, e) => set_spanM json new s e)
    end.

  (** inter_set.go:56-90 [SetKey]; [newKey] is a string, converted at line 87 *)
  Definition SetKeyM (json : bsl) (newKey : bytes) (path : list bytes) : M mupd :=
    match newKey, path with
    | [], _ => ret (MFail json ENullKey)
    | _, [] => ret (MFail json ENullPath)
    | _, _ =>
        let! t := look json in
        match core t false (removelast path ++ [newKey]) with
        | Panic => panic
        | Ok _ => ret (MFail json (EBadJSON 0))
        | Err e =>
            if err_equal (Some e) 8 then
              mubind json (core t false path) (fun '(ks, s, _) =>
              match ks with
              | None => panic
              | Some ks =>
                  let! o := eval (setkey_loop (skipn ks t) ks s) in
                  match o with
                  | Some i => let! new := of_string (grow (length newKey)) newKey in done_replaceM json new ks i
                  | None => ret (MFail json (EBadJSON ks))
                  end
              end)
            else ret (MFail json e)
        end
    end.

  (** inter_delete.go:6-54 [Delete]; [[]byte{}] at lines 42, 46 and 50 *)
  Definition DeleteM (json : bsl) (path : list bytes) : M mupd :=
    match path with
    | [] => ret (MFail json ENullPath)
    | _ =>
        let! t := look json in
        mubind json (core t false path) (fun '(ks, s, e) =>
        match ks with
        | Some O => panic
        | _ =>
            let start := match ks with None => s | Some ks => pred ks end in
            let! c := eval (at_pred t start) in
            let start := if c =? 34 then pred start else start in
            let! d := eval (at_ t e) in
            let e := if d =? 34 then S e else e in
            let! sedge := eval (back_edge t (pred start)) in
            let eedge := fwd_edge (skipn e t) e in
            let! sc := eval (at_ t sedge) in
            let! ec := eval (at_ t eedge) in
            if is_open sc && (sc + 2 =? ec) then let! new := make_len 0 in done_replaceM json new start e
            else if ec =? 44 then let! new := make_len 0 in done_replaceM json new start (S eedge)
            else if sc =? 44 then let! new := make_len 0 in done_replaceM json new sedge e
            else ret (MFail json (EBadJSON start))
        end)
    end.

  (** inter_add.go:8-76 [AddKeyValue]; [None] is a nil value.  The pair is built as a string and converted (lines 58-60, 65-67). *)
  Definition AddKeyValueM (json : bsl) (key : bytes) (value : option bsl) (path : list bytes) : M mupd :=
    let! t := look json in
    let! value := match value with None => of_string (grow 4) (b "null") | Some s => ret s end in
    let! v := look value in
    if (length t <? 2)%nat then ret (MFail json (EBadJSON 0))
    else
      mubind json (target_span t 123 125 EObjectExpected path) (fun '(s, e) =>
      let! ok := eval (braces_at t s e 123 125) in
      if (ok : bool) then
        if blank_between t s e then
          let pair := (34 :: key ++ [34; 58]) ++ v in
          let! new := of_string (grow (length pair)) pair in done_replaceM json new (pred e) (pred e)
        else
          match core t false (path ++ [key]) with
          | Panic => panic
          | Err er =>
              if err_equal (Some er) 8 then
                let pair := (44 :: 34 :: key ++ [34; 58]) ++ v in
                let! new := of_string (grow (length pair)) pair in done_replaceM json new (pred e) (pred e)
              else ret (MFail json er)
          | Ok _ => ret (MFail json (EKeyAlreadyExist key))
          end
      else ret (MFail json EObjectExpected)).

  (** inter_add.go:129-131: [val := make([]byte, len(value)+1); val[0] = 44; copy(val[1:], value)] *)
  Definition comma_first (value : bsl) : M bsl :=
    let! val := make_len (Z.of_nat (b_len value) + 1) in
    let! _ := store val 0 44 in
    let! rest := sub_from val 1 in
    let! _ := copy rest value in
    ret val.

  (** inter_add.go:81-139 [Add] *)
  Definition AddM (json value : bsl) (path : list bytes) : M mupd :=
    let! t := look json in
    if (length t <? 2)%nat then ret (MFail json (EBadJSON 0))
    else
      mubind json (target_span t 91 93 EArrayExpected path) (fun '(s, e) =>
      let! ok := eval (braces_at t s e 91 93) in
      if (ok : bool) then
        if blank_between t s e then done_replaceM json value (pred e) (pred e)
        else let! val := comma_first value in done_replaceM json val (pred e) (pred e)
      else ret (MFail json EArrayExpected)).

  (** inter_add.go:209-211 and 216-218 (comma last), 223-225 (comma first) *)
  Definition with_comma_last (value : bsl) : M bsl :=
    let! val := make_cap (Z.of_nat (b_len value) + 1) in
    let! val := append_slice grow val value in
    append_bytes grow val [44].
  Definition with_comma_first (value : bsl) : M bsl :=
    let! val := make_cap (Z.of_nat (b_len value) + 1) in
    let! val := append_bytes grow val [44] in
    append_slice grow val value.

  (** inter_add.go:144-230 [Insert] *)
  Definition InsertM (json : bsl) (index : Z) (value : bsl) (path : list bytes) : M mupd :=
    let! t := look json in
    mubind json (target_span t 91 93 EArrayExpected path) (fun '(s, e) =>
    let! ok := eval (braces_at t s e 91 93) in
    if (ok : bool) then
      mubind json (core t false (path ++ [itoa index])) (fun '(_, s, e) =>
      let! c := eval (at_pred t s) in
      let s := if c =? 34 then pred s else s in
      let! d := eval (at_ t e) in
      let e := if d =? 34 then S e else e in
      let! sedge := eval (back_edge t (pred s)) in
      let eedge := fwd_edge (skipn e t) e in
      let! sc := eval (at_ t sedge) in
      let! ec := eval (at_ t eedge) in
      if is_open sc && (sc + 2 =? ec) then let! val := with_comma_last value in done_replaceM json val s s
      else if ec =? 44 then let! val := with_comma_last value in done_replaceM json val s s
      else if sc =? 44 then
        let! val := with_comma_first value in
        match s with
        | O => panic
        | S p => done_replaceM json val p p
        end
      else ret (MFail json (EBadJSON s)))
    else ret (MFail json EArrayExpected)).

  (** inter_set.go:94-106 [Store]; a nil value shows no bytes *)
  Definition StoreM (json : bsl) (key : bytes) (value : option bsl) (path : list bytes) : M mupd :=
    let! t := look json in
    match core t false (path ++ [key]) with
    | Panic => panic
    | Err e => if err_equal (Some e) 8 then AddKeyValueM json key value path else ret (MFail json e)
    | Ok (_, s, e) => set_spanM json (match value with None => Bsl 0 0 0 0 | Some v => v end) s e
    end.

  (** others.go:71-95, the loop of Flatten; [rest] is what is left of json *)
  Fixpoint flattenM (rest : bytes) (inq : bool) (out : bsl) : M bsl :=
    match rest with
    | [] => ret out
    | c :: r =>
        if c =? 92 then
          let! out := append_bytes grow out [c] in
          match r with
          | [] => ret out
          | d :: r' => let! out := append_bytes grow out [d] in flattenM r' inq out
          end
        else if c =? 34 then let! out := append_bytes grow out [c] in flattenM r (negb inq) out
        else if inq then let! out := append_bytes grow out [c] in flattenM r inq out
        else if space c then flattenM r inq out
        else let! out := append_bytes grow out [c] in flattenM r inq out
    end.

  (** others.go:68-97 [Flatten] *)
  Definition FlattenM (json : bsl) : M bsl :=
    let! t := look json in
    let! out := make_cap (Z.of_nat (b_len json)) in
    flattenM t false out.

  (** utils.go:36-42 [createTabs]; the loop over [res], [k] rounds from position [i] on *)
  Fixpoint fill_tabs (res : bsl) (i k : nat) : M unit :=
    match k with
    | O => ret tt
    | S k' => let! _ := store res i 9 in fill_tabs res (S i) k'
    end.
  Definition createTabsM (n : Z) : M bsl :=
    let! res := make_len n in
    let! _ := fill_tabs res 0 (b_len res) in
    ret res.

  (** others.go:107-181, the loop of Indent *)
  Fixpoint indentM (rest : bytes) (prev : option N) (level : Z) (inq : bool) (out : bsl) : M bsl :=
    match rest with
    | [] => ret out
    | c :: r =>
        if c =? 34 then
          let! out := append_bytes grow out [c] in
          match prev with
          | None => panic
          | Some d => indentM r (Some c) level (if d =? 92 then inq else negb inq) out
          end
        else if inq then let! out := append_bytes grow out [c] in indentM r (Some c) level inq out
        else if space c then indentM r (Some c) level inq out
        else if is_open c then
          let! out := append_bytes grow out [c] in
          let! out := append_bytes grow out [10] in
          let! tabs := createTabsM (level + 1) in
          let! out := append_slice grow out tabs in
          indentM r (Some c) (level + 1)%Z inq out
        else if is_close c then
          let! out := append_bytes grow out [10] in
          let! tabs := createTabsM (level - 1) in
          let! out := append_slice grow out tabs in
          let! out := append_bytes grow out [c] in
          indentM r (Some c) (level - 1)%Z inq out
        else if c =? 44 then
          let! out := append_bytes grow out [c] in
          let! out := append_bytes grow out [10] in
          let! tabs := createTabsM level in
          let! out := append_slice grow out tabs in
          indentM r (Some c) level inq out
        else if c =? 58 then
          let! out := append_bytes grow out [c] in
          let! out := append_bytes grow out [32] in
          indentM r (Some c) level inq out
        else let! out := append_bytes grow out [c] in indentM r (Some c) level inq out
    end.

  (** others.go:102-182 [Indent] *)
  Definition IndentM (json : bsl) : M bsl :=
    let! json := FlattenM json in
    let! t := look json in
    let! out := make_cap (Z.of_nat (b_len json)) in
    indentM t None 0 false out.
End Mem.
