(** Model of the interpreter functions of inter_get.go, inter_set.go, inter_delete.go and
    inter_add.go: reading and updating a document given as text. *)
From Coq Require Import String.
From Verif Require Export GoStd Core Errors.

Local Open Scope N_scope.

(** Result of a function returning ([]byte, error): the new text and a nil error; the returned slice
    ([None] is nil) and an error; or a panic. *)
Inductive upd : Type :=
| Done (out : bytes)
| Fail (out : option bytes) (e : err)
| UPanic.

(** [x, err := r; if err != nil { return json, err }; k] *)
Definition ubind {A : Type} (json : bytes) (r : res A) (k : A -> upd) : upd :=
  match r with Ok a => k a | Err e => Fail (Some json) e | Panic => UPanic end.

(** Same, for expressions that can only panic. *)
Definition pbind {A : Type} (r : res A) (k : A -> upd) : upd :=
  match r with Ok a => k a | _ => UPanic end.

(** [return replace(json, value, s, e), nil] *)
Definition done_replace (json new : bytes) (s e : nat) : upd := pbind (replace json new s e) Done.

(** ** Reading *)

(** inter_get.go:12-21 [Get] and inter_get.go:25-31 [GetString] (conversion to string only). *)
Definition Get (json : bytes) (path : list bytes) : res bytes :=
  match path with
  | [] => Ok json
  | _ => do '(_, s, e) <- core json false path; slice json s e
  end.
Definition GetString := Get.

(** inter_get.go:36-46 [GetInt] *)
Definition GetInt (json : bytes) (path : list bytes) : res Z :=
  do v <- GetString json path;
  match atoi v with Some z => Ok z | None => Err (EIntegerParse v) end.

(** inter_get.go:66-78 [GetBool] *)
Definition GetBool (json : bytes) (path : list bytes) : res bool :=
  do v <- GetString json path;
  if bytes_eqb v (b "true") then Ok true
  else if bytes_eqb v (b "false") then Ok false
  else Err (EBoolParse v).

(** ** Set *)

(** inter_set.go:19-22 and 102-105: replace the value at [s,e), with its quotes if it has them. *)
Definition set_span (json new : bytes) (s e : nat) : upd :=
  pbind (at_pred json s) (fun c =>
  if c =? 34 then
    pbind (at_ json e) (fun d =>
    if d =? 34 then done_replace json new (pred s) (S e) else done_replace json new s e)
  else done_replace json new s e).

(** inter_set.go:11-23 [Set] *)
Definition Set_ (json new : bytes) (path : list bytes) : upd :=
  match path with
  | [] => Fail (Some json) ENullPath
  | _ => ubind json (core json false path) (fun '(_, s, e) => set_span json new s e)
  end.

(** inter_set.go:76-84: look for the end of the key between [keyStart] and [start]. *)
Fixpoint setkey_loop (rest : bytes) (i bound : nat) : res (option nat) :=
  match rest with
  | [] => if (i <? bound)%nat then Panic else Ok None
  | c :: r =>
      if (i <? bound)%nat then
        if c =? 92 then match r with
                        | [] => if (S (S i) <? bound)%nat then Panic else Ok None
                        | _ :: r' => setkey_loop r' (S (S i)) bound
                        end
        else if c =? 34 then Ok (Some i)
        else setkey_loop r (S i) bound
      else Ok None
  end.

(** inter_set.go:56-90 [SetKey].  [newPath] is [path] with the last element replaced. *)
Definition SetKey (json newKey : bytes) (path : list bytes) : upd :=
  match newKey, path with
  | [], _ => Fail (Some json) ENullKey
  | _, [] => Fail (Some json) ENullPath
  | _, _ =>
      match core json false (removelast path ++ [newKey]) with
      | Panic => UPanic
      | Ok _ => Fail (Some json) (EBadJSON 0)
      | Err e =>
          if err_equal (Some e) 8 then
            ubind json (core json false path) (fun '(ks, s, _) =>
            match ks with
            | None => UPanic
            | Some ks =>
                pbind (setkey_loop (skipn ks json) ks s) (fun o =>
                match o with
                | Some i => done_replace json newKey ks i
                | None => Fail (Some json) (EBadJSON ks)
                end)
            end)
          else Fail (Some json) e
      end
  end.

(** ** Delete *)

(** inter_delete.go:29-34 and inter_add.go:196-201: [for i := start-1; i > 0; i--] *)
Fixpoint back_edge (json : bytes) (i : nat) : res nat :=
  match i with
  | O => Ok O
  | S p => do c <- at_ json i; if space c then back_edge json p else Ok i
  end.

(** inter_delete.go:35-40 and inter_add.go:202-207 *)
Fixpoint fwd_edge (rest : bytes) (i : nat) : nat :=
  match rest with
  | [] => O
  | c :: r => if space c then fwd_edge r (S i) else i
  end.

(** inter_delete.go:6-54 [Delete] *)
Definition Delete (json : bytes) (path : list bytes) : upd :=
  match path with
  | [] => Fail (Some json) ENullPath
  | _ =>
      ubind json (core json false path) (fun '(ks, s, e) =>
      match ks with
      | Some O => UPanic
      | _ =>
          let start := match ks with None => s | Some ks => pred ks end in
          pbind (at_pred json start) (fun c =>
          let start := if c =? 34 then pred start else start in
          pbind (at_ json e) (fun d =>
          let e := if d =? 34 then S e else e in
          pbind (back_edge json (pred start)) (fun sedge =>
          let eedge := fwd_edge (skipn e json) e in
          pbind (at_ json sedge) (fun sc =>
          pbind (at_ json eedge) (fun ec =>
          if is_open sc && (sc + 2 =? ec) then done_replace json [] start e
          else if ec =? 44 then done_replace json [] start (S eedge)
          else if sc =? 44 then done_replace json [] sedge e
          else Fail (Some json) (EBadJSON start))))))
      end)
  end.

(** ** Adding *)

(** inter_add.go:19-31 / 89-101 / 149-161: first non-blank byte must be [open_]. *)
Fixpoint root_first (len : nat) (open_ : N) (exp : err) (rest : bytes) (i : nat) : res nat :=
  match rest with
  | [] => Ok O
  | c :: r =>
      if space c then root_first len open_ exp r (S i)
      else if c =? open_ then (if (S i =? len)%nat then Err (EBadJSON i) else Ok i)
      else Err exp
  end.

(** inter_add.go:32-44 / 102-114 / 162-174: last non-blank byte must be [close_]; [rrest] is the
    reversed prefix of length [n]. *)
Fixpoint root_last (close_ : N) (exp : err) (rrest : bytes) (n : nat) : res nat :=
  match rrest, n with
  | c :: r, S i =>
      if space c then root_last close_ exp r i
      else if c =? close_ then (if (i =? 0)%nat then Err (EBadJSON i) else Ok (S i))
      else Err exp
  | _, _ => Ok O
  end.

Definition root_span (json : bytes) (open_ close_ : N) (exp : err) : res (nat * nat) :=
  do s <- root_first (length json) open_ exp json 0;
  do e <- root_last close_ exp (rev json) (length json);
  Ok (s, e).

(** Where the path points, or the whole document for an empty path. *)
Definition target_span (json : bytes) (open_ close_ : N) (exp : err) (path : list bytes) : res (nat * nat) :=
  match path with
  | [] => root_span json open_ close_ exp
  | _ => do '(_, s, e) <- core json false path; Ok (s, e)
  end.

(** [json[start] == open && json[end-1] == close], with Go's short-circuit evaluation. *)
Definition braces_at (json : bytes) (s e : nat) (open_ close_ : N) : res bool :=
  do c <- at_ json s;
  if c =? open_ then (do d <- at_pred json e; Ok (d =? close_)) else Ok false.

(** inter_add.go:52-57 / 122-127: only blanks between the braces? *)
Definition blank_between (json : bytes) (s e : nat) : bool :=
  forallb space (firstn (pred e - S s) (skipn (S s) json)).

(** inter_add.go:8-76 [AddKeyValue]; [None] is a nil value. *)
Definition AddKeyValue (json key : bytes) (value : option bytes) (path : list bytes) : upd :=
  let value := match value with None => b "null" | Some v => v end in
  if (length json <? 2)%nat then Fail (Some json) (EBadJSON 0)
  else
    ubind json (target_span json 123 125 EObjectExpected path) (fun '(s, e) =>
    pbind (braces_at json s e 123 125) (fun ok =>
    if ok then
      if blank_between json s e then
        done_replace json ((34 :: key ++ [34; 58]) ++ value) (pred e) (pred e)
      else
        match core json false (path ++ [key]) with
        | Panic => UPanic
        | Err er =>
            if err_equal (Some er) 8
            then done_replace json ((44 :: 34 :: key ++ [34; 58]) ++ value) (pred e) (pred e)
            else Fail (Some json) er
        | Ok _ => Fail (Some json) (EKeyAlreadyExist key)
        end
    else Fail (Some json) EObjectExpected)).

(** inter_add.go:81-139 [Add] *)
Definition Add_ (json value : bytes) (path : list bytes) : upd :=
  if (length json <? 2)%nat then Fail (Some json) (EBadJSON 0)
  else
    ubind json (target_span json 91 93 EArrayExpected path) (fun '(s, e) =>
    pbind (braces_at json s e 91 93) (fun ok =>
    if ok then
      if blank_between json s e then done_replace json value (pred e) (pred e)
      else done_replace json (44 :: value) (pred e) (pred e)
    else Fail (Some json) EArrayExpected)).

(** inter_add.go:144-230 [Insert] *)
Definition Insert (json : bytes) (index : Z) (value : bytes) (path : list bytes) : upd :=
  ubind json (target_span json 91 93 EArrayExpected path) (fun '(s, e) =>
  pbind (braces_at json s e 91 93) (fun ok =>
  if ok then
    ubind json (core json false (path ++ [itoa index])) (fun '(_, s, e) =>
    pbind (at_pred json s) (fun c =>
    let s := if c =? 34 then pred s else s in
    pbind (at_ json e) (fun d =>
    let e := if d =? 34 then S e else e in
    pbind (back_edge json (pred s)) (fun sedge =>
    let eedge := fwd_edge (skipn e json) e in
    pbind (at_ json sedge) (fun sc =>
    pbind (at_ json eedge) (fun ec =>
    if is_open sc && (sc + 2 =? ec) then done_replace json (value ++ [44]) s s
    else if ec =? 44 then done_replace json (value ++ [44]) s s
    else if sc =? 44 then
      match s with
      | O => UPanic
      | S p => done_replace json (44 :: value) p p
      end
    else Fail (Some json) (EBadJSON s)))))))
  else Fail (Some json) EArrayExpected)).

(** inter_set.go:94-106 [Store] *)
Definition Store (json key : bytes) (value : option bytes) (path : list bytes) : upd :=
  match core json false (path ++ [key]) with
  | Panic => UPanic
  | Err e => if err_equal (Some e) 8 then AddKeyValue json key value path else Fail (Some json) e
  | Ok (_, s, e) => set_span json (match value with None => [] | Some v => v end) s e
  end.
