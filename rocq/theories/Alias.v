(** The functions that append to the path slice they are given, with the heap of Heap.v: [append] may write into the
    caller's backing array.  Each function is its by-value model (Api.v, Iter.v, Walk.v) with the appends made explicit;
    the results are proved equal in AliasProofs.v. *)
From Coq Require Import String.
From Verif Require Import GoStd Core Errors Api Iter Walk Heap.

Local Open Scope N_scope.

Section Alias.
  Variable grow : nat -> nat.   (* spare capacity after a reallocating append *)

  (** inter_add.go:8-76 [AddKeyValue]; the append is at line 63 *)
  Definition AddKeyValueH (h : heap) (json key : bytes) (value : option bytes) (path : slc) : heap * upd :=
    let value := match value with None => b "null" | Some v => v end in
    if (length json <? 2)%nat then (h, Fail (Some json) (EBadJSON 0))
    else
      match target_span json 123 125 EObjectExpected (view h path) with
      | Panic => (h, UPanic)
      | Err e => (h, Fail (Some json) e)
      | Ok (s, e) =>
          match braces_at json s e 123 125 with
          | Ok true =>
              if blank_between json s e then
                (h, done_replace json ((34 :: key ++ [34; 58]) ++ value) (pred e) (pred e))
              else
                let '(h, path) := append1 grow h path key in
                (h, match core json false (view h path) with
                    | Panic => UPanic
                    | Err er =>
                        if err_equal (Some er) 8
                        then done_replace json ((44 :: 34 :: key ++ [34; 58]) ++ value) (pred e) (pred e)
                        else Fail (Some json) er
                    | Ok _ => Fail (Some json) (EKeyAlreadyExist key)
                    end)
          | Ok false => (h, Fail (Some json) EObjectExpected)
          | _ => (h, UPanic)
          end
      end.

  (** inter_add.go:144-230 [Insert]; the append is at line 184 *)
  Definition InsertH (h : heap) (json : bytes) (index : Z) (value : bytes) (path : slc) : heap * upd :=
    match target_span json 91 93 EArrayExpected (view h path) with
    | Panic => (h, UPanic)
    | Err e => (h, Fail (Some json) e)
    | Ok (s, e) =>
        match braces_at json s e 91 93 with
        | Ok true =>
            let '(h, path) := append1 grow h path (itoa index) in
            (h,
             ubind json (core json false (view h path)) (fun '(_, s, e) =>
             pbind (at_pred json s) (fun c =>
             let s := if c =? 34 then pred s else s in
             pbind (at_ json e) (fun d =>
             let e := if d =? 34 then S e else e in
             pbind (back_edge json (pred s)) (fun sedge =>
             let eedge := fwd_edge (skipn e json) e in
             pbind (at_ json sedge) (fun sc =>
             pbind (at_ json eedge) (fun ec =>
             if is_open sc && (sc + 2 =? ec) then done_replace json (value ++ [44]) s s
             else if ec =? 44 then done_replace json (value ++ [44]) s s
             else if sc =? 44 then
               match s with
               | O => UPanic
               | S p => done_replace json (44 :: value) p p
               end
             else Fail (Some json) (EBadJSON s))))))))
        | Ok false => (h, Fail (Some json) EArrayExpected)
        | _ => (h, UPanic)
        end
    end.

  (** inter_set.go:94-106 [Store]; the append is at line 95, and AddKeyValue makes its own *)
  Definition StoreH (h : heap) (json key : bytes) (value : option bytes) (path : slc) : heap * upd :=
    let '(h, path') := append1 grow h path key in
    match core json false (view h path') with
    | Panic => (h, UPanic)
    | Err e => if err_equal (Some e) 8 then AddKeyValueH h json key value path else (h, Fail (Some json) e)
    | Ok (_, s, e) => (h, set_span json (match value with None => [] | Some v => v end) s e)
    end.

  (** inter_get.go:629-641 [GetAll]; [range keys] reads each element of the slice [keys] when its turn comes.
      [n] elements are left, the next is number [i]. *)
  Fixpoint get_all_h (n i : nat) (h : heap) (json : bytes) (keys path : slc) : heap * res (list bytes) :=
    match n with
    | O => (h, Ok [])
    | S n =>
        let k := nth i (view h keys) [] in
        let '(h, path') := append1 grow h path k in
        match GetString json (view h path') with
        | Ok v => let '(h, r) := get_all_h n (S i) h json keys path in (h, do l <- r; Ok (v :: l))
        | Err e => (h, Err e)
        | Panic => (h, Panic)
        end
    end.
  Definition GetAllH (h : heap) (json : bytes) (keys path : slc) : heap * res (list bytes) :=
    get_all_h (s_len keys) 0 h json keys path.

  (** inter_get.go:645-657 [GetAllMap] *)
  Fixpoint get_all_map_h (n i : nat) (h : heap) (json : bytes) (keys path : slc) (m : gomap) : heap * res gomap :=
    match n with
    | O => (h, Ok m)
    | S n =>
        let k := nth i (view h keys) [] in
        let '(h, path') := append1 grow h path k in
        match GetString json (view h path') with
        | Ok v => get_all_map_h n (S i) h json keys path (map_put k v m)
        | Err e => (h, Err e)
        | Panic => (h, Panic)
        end
    end.
  Definition GetAllMapH (h : heap) (json : bytes) (keys path : slc) : heap * res gomap :=
    get_all_map_h (s_len keys) 0 h json keys path [].

  Section WalkH.
    Context {St : Type}.
    Variable pf : bytes -> bool.

    (** walk.go:15-63 [walk], appends at lines 23 and 35.  The callback gets the slice and may read the heap (so it may
        keep slices in its state and read them later); it does not write to it. *)
    Fixpoint walkH (fuel : nat) (json : bytes) (path : slc)
             (cb : heap -> St -> bytes -> bytes -> slc -> St * (bool * option err)) (hs : heap * St) : wres (heap * St) :=
      match fuel with
      | O => WFuel
      | S fuel =>
          let '(h, s) := hs in
          match GetType pf json (view h path) with
          | Err e => WDone hs (Some e)
          | Panic => WPanic
          | Ok TObject =>
              after (IterateKeyValue json
                (fun w key _ => below w (fun '(h, s) _ =>
                   let '(h, path) := append1 grow h path key in walkH fuel json path cb (h, s))) (view h path) (Live hs 0))
          | Ok TArray =>
              after (IterateArray json
                (fun w _ => below w (fun '(h, s) i =>
                   let '(h, path) := append1 grow h path (itoa (Z.of_nat i)) in walkH fuel json path cb (h, s))) (view h path) (Live hs 0))
          | Ok _ =>
              match Get json (view h path) with
              | Err e => WDone hs (Some e)
              | Panic => WPanic
              | Ok val => let '(s', (_, e)) := cb h s (last (view h path) []) val path in WDone (h, s') e
              end
          end
      end.

    (** walk.go:10-13 [Walk]: the path starts as an empty slice literal *)
    Definition WalkH (h : heap) (json : bytes) (cb : heap -> St -> bytes -> bytes -> slc -> St * (bool * option err)) (s : St) : wres (heap * St) :=
      let '(h, path) := alloc h [] 0 in walkH (S (S (length json))) json path cb (h, s).
  End WalkH.
End Alias.
