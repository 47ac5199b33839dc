(** Set, SetKey, Store, Delete, AddKeyValue, Add and Insert once more, statement by statement; UpdateGoProofs.v shows
    that they compute what the models in Api.v compute. *)
From Coq Require Import String.
From Verif Require Import GoStd Errors GoLang CoreGo IterGo.

Local Open Scope Z_scope.

(** The variables [start], [end], [startEdge], [endEdge]; of SetKey, [start] and [keyStart] *)
Record ed : Type := Ed { d_start : Z; d_end : Z; d_startEdge : Z; d_endEdge : Z }.
Definition d_to_start x s := Ed x (d_end s) (d_startEdge s) (d_endEdge s).
Definition d_to_end x s := Ed (d_start s) x (d_startEdge s) (d_endEdge s).
Definition d_to_startEdge x s := Ed (d_start s) (d_end s) x (d_endEdge s).
Definition d_to_endEdge x s := Ed (d_start s) (d_end s) (d_startEdge s) x.
Definition none : ed := Ed 0 0 0 0.

(** What the functions return: a text and an error *)
Definition out : Type := bytes * option err.

(** A statement that does not use the innermost variable *)
Definition inside {S R L : Type} (c : cmd S R) : cmd (S * L) R :=
  fun s => match c (fst s) with
           | Nrm s' => Nrm (s', snd s) | Cnt s' => Cnt (s', snd s) | Brk s' => Brk (s', snd s) | Gto s' => Gto (s', snd s)
           | Ret r => Ret r | Pan => Pan | Out => Out
           end.

Section UpdateGo.
  Variable fuel : nat.

  (** utils.go:8-14 [replace]; [make] panics on a negative capacity; the state is [newJSON] *)
  Definition replace_go (json newValue : bytes) (start end_ : Z) : flow unit bytes :=
    func (
      read (fun _ => if zlen json - end_ + start + zlen newValue <? 0 then Panic else Ok tt) (fun _ => set_ (fun _ => [])) ;;
      read (fun _ => zslice json 0 start) (fun x => set_ (fun s => s ++ x)) ;;
      set_ (fun s => s ++ newValue) ;;
      read (fun _ => zslice json end_ (zlen json)) (fun x => set_ (fun s => s ++ x)) ;;
      return_ (fun s => s)) [].

  Section Text.
    Variable json : bytes.
    (** [return replace(json, newValue, start+a, end+c), nil]; [json = replace(...); return json, nil] *)
    Definition replaced {S : Type} (newValue : bytes) (start end_ : S -> Z) : cmd S out :=
      call (fun s => replace_go json newValue (start s) (end_ s)) (fun j => return_ (fun _ => (j, None))).
    Definition wrong {S : Type} (e : S -> err) : cmd S out := return_ (fun s => (json, Some (e s))).

    (** [_, start, end, err = core(json, false, path...); if err != nil { return json, err }] *)
    Definition located (path : list bytes) : cmd ed out :=
      call (fun _ => returns (core_go fuel json false path)) (fun r =>
        let '(_, start, end_, e) := r in
        set_ (fun s => d_to_start start (d_to_end end_ s)) ;;
        match e with Some e => wrong (fun _ => e) | None => pass end).

    (** inter_set.go:19-22, 102-105 *)
    Definition set_value (newValue : bytes) : cmd ed out :=
      read (fun s => and_also (is_quote json (d_start s - 1)) (is_quote json (d_end s))) (fun quoted =>
      if_ (fun _ => quoted) (replaced newValue (fun s => d_start s - 1) (fun s => d_end s + 1)) pass) ;;
      replaced newValue d_start d_end.

    (** inter_set.go:11-23 [Set] *)
    Definition Set_go (newValue : bytes) (path : list bytes) : flow unit out :=
      func (
        if_ (fun _ => zlen path =? 0) (wrong (fun _ => ENullPath)) pass ;;
        located path ;;
        set_value newValue) none.

    (** [copy(dst, src)] *)
    Definition copy {A : Type} (dst src : list A) : list A := firstn (length dst) src ++ skipn (length src) dst.
    (** inter_set.go:56-90 [SetKey]; the state is [keyStart] ([d_startEdge]) and [start] *)
    Definition SetKey_go (newKey : bytes) (path : list bytes) : flow unit out :=
      func (
        if_ (fun _ => zlen newKey =? 0) (wrong (fun _ => ENullKey)) pass ;;
        if_ (fun _ => zlen path =? 0) (wrong (fun _ => ENullPath)) pass ;;
        read (fun _ => zslice path 0 (zlen path - 1)) (fun front =>
        let newPath := copy (repeat [] (length path)) front in
        let newPath := zput newPath (Z.to_N (zlen newPath - 1)) newKey in
        call (fun _ => returns (core_go fuel json false newPath)) (fun r =>
          let '(_, _, _, e) := r in
          match e with
          | Some e =>
              if_ (fun _ => err_equal (Some e) 8)
                (call (fun _ => returns (core_go fuel json false path)) (fun r =>
                   let '(keyStart, start, _, e) := r in
                   set_ (fun s => d_to_startEdge keyStart (d_to_start start s)) ;;
                   match e with Some e => wrong (fun _ => e) | None => pass end) ;;
                 var d_startEdge (for_ fuel (fun s => Ok (snd s <? d_start (fst s))) (fun s => (fst s, snd s + 1)) (
                   read (fun s => zat json (snd s)) (fun curr =>
                   if_ (fun _ => (curr =? 92)%N) (set_ (fun s => (fst s, snd s + 1))) pass ;;
                   if_ (fun _ => (curr =? 34)%N) (replaced newKey (fun s => d_startEdge (fst s)) snd) pass))) ;;
                 wrong (fun s => bad (d_startEdge s))) pass ;;
              wrong (fun _ => e)
          | None => pass
          end)) ;;
        wrong (fun s => bad (d_startEdge s))) none.

    (** inter_delete.go:23-40, inter_add.go:188-207: over the quotes, then the bytes before and after *)
    Definition widened : cmd ed out :=
      read (fun s => is_quote json (d_start s - 1)) (fun q => if_ (fun _ => q) (set_ (fun s => d_to_start (d_start s - 1) s)) pass) ;;
      read (fun s => is_quote json (d_end s)) (fun q => if_ (fun _ => q) (set_ (fun s => d_to_end (d_end s + 1) s)) pass) ;;
      var (fun s => d_start s - 1) (for_ fuel (fun s => Ok (snd s >? 0)) (fun s => (fst s, snd s - 1)) (
        read (fun s => zat json (snd s)) (fun c =>
        if_ (fun _ => negb (space c)) (set_ (fun s => (d_to_startEdge (snd s) (fst s), snd s)) ;; break_) pass))) ;;
      var d_end (for_ fuel (fun s => Ok (snd s <? zlen json)) (fun s => (fst s, snd s + 1)) (
        read (fun s => zat json (snd s)) (fun c =>
        if_ (fun _ => negb (space c)) (set_ (fun s => (d_to_endEdge (snd s) (fst s), snd s)) ;; break_) pass))).
    (** [(json[startEdge] == 91 || json[startEdge] == 123) && json[startEdge]+2 == json[endEdge]]; a byte plus 2 is a byte *)
    Definition alone (s : ed) : res bool :=
      and_also (do c <- zat json (d_startEdge s); if (c =? 91)%N then Ok true else (do c <- zat json (d_startEdge s); Ok (c =? 123)%N))
               (do c <- zat json (d_startEdge s); do d <- zat json (d_endEdge s); Ok (((c + 2) mod 256 =? d)%N)).

    (** inter_delete.go:6-54 [Delete] *)
    Definition Delete_go (path : list bytes) : flow unit out :=
      func (
        if_ (fun _ => zlen path =? 0) (wrong (fun _ => ENullPath)) pass ;;
        call (fun _ => returns (core_go fuel json false path)) (fun r =>
          let '(ks, s_, e_, e) := r in
          match e with Some e => wrong (fun _ => e) | None => pass end ;;
          if_ (fun _ => ks =? -1) (set_ (fun s => d_to_start s_ (d_to_end e_ s))) (set_ (fun s => d_to_start (ks - 1) (d_to_end e_ s)))) ;;
        widened ;;
        read alone (fun x => if_ (fun _ => x) (replaced [] d_start d_end) pass) ;;
        read (fun s => zat json (d_endEdge s)) (fun c => if_ (fun _ => (c =? 44)%N) (replaced [] d_start (fun s => d_endEdge s + 1)) pass) ;;
        read (fun s => zat json (d_startEdge s)) (fun c => if_ (fun _ => (c =? 44)%N) (replaced [] d_startEdge d_end) pass) ;;
        wrong (fun s => bad (d_start s))) none.

    (** inter_add.go:18-50, 88-120, 148-180: where the path points, or the whole text *)
    Definition target (path : list bytes) (open_ close_ : N) (expected : err) : cmd ed out :=
      if_ (fun _ => zlen path =? 0)
        (var (fun _ => 0) (for_ fuel (fun s => Ok (snd s <? zlen json)) (fun s => (fst s, snd s + 1)) (
           read (fun s => zat json (snd s)) (fun c =>
           if_ (fun _ => negb (space c))
             (if_ (fun _ => (c =? open_)%N)
                (set_ (fun s => (d_to_start (snd s) (fst s), snd s)) ;;
                 if_ (fun s => snd s =? zlen json - 1) (wrong (fun s => bad (snd s))) pass ;;
                 break_)
                (wrong (fun _ => expected))) pass))) ;;
         var (fun _ => zlen json - 1) (for_ fuel (fun s => Ok (snd s >? -1)) (fun s => (fst s, snd s - 1)) (
           read (fun s => zat json (snd s)) (fun c =>
           if_ (fun _ => negb (space c))
             (if_ (fun _ => (c =? close_)%N)
                (set_ (fun s => (d_to_end (snd s + 1) (fst s), snd s)) ;;
                 if_ (fun s => snd s =? 0) (wrong (fun s => bad (snd s))) pass ;;
                 break_)
                (wrong (fun _ => expected))) pass))))
        (located path).
    (** [json[start] == open && json[end-1] == close] *)
    Definition braces (open_ close_ : N) (s : ed) : res bool :=
      and_also (do c <- zat json (d_start s); Ok (c =? open_)%N) (do c <- zat json (d_end s - 1); Ok (c =? close_)%N).
    (** inter_add.go:52-57, 122-127: [empty := true; for i := start + 1; i < end-1; i++ { if !space(json[i]) { empty = false } }; if empty { c }] *)
    Definition if_empty (c : cmd ed out) : cmd ed out :=
      var (fun _ => true) (
        var (fun s => d_start (fst s) + 1) (for_ fuel (fun s => Ok (snd s <? d_end (fst (fst s)) - 1)) (fun s => (fst s, snd s + 1)) (
          read (fun s => zat json (snd s)) (fun c =>
          if_ (fun _ => negb (space c)) (set_ (fun s => ((fst (fst s), false), snd s))) pass))) ;;
        if_ snd (inside c) pass).

    (** inter_add.go:8-76 [AddKeyValue], from line 12 on; [value] is not nil *)
    Definition AddKeyValue_value (key value : bytes) (path : list bytes) : flow unit out :=
      func (
        if_ (fun _ => zlen json <? 2) (wrong (fun _ => bad 0)) pass ;;
        target path 123 125 EObjectExpected ;;
        read (braces 123 125) (fun x => if_ (fun _ => x)
          (if_empty (replaced ((34%N :: key ++ [34; 58]%N) ++ value) (fun s => d_end s - 1) (fun s => d_end s - 1)) ;;
           call (fun _ => returns (core_go fuel json false (path ++ [key]))) (fun r =>
             let '(_, _, _, e) := r in
             match e with
             | Some e =>
                 if_ (fun _ => err_equal (Some e) 8)
                   (replaced ((44%N :: 34%N :: key ++ [34; 58]%N) ++ value) (fun s => d_end s - 1) (fun s => d_end s - 1)) pass ;;
                 wrong (fun _ => e)
             | None => pass
             end) ;;
           wrong (fun _ => EKeyAlreadyExist key)) pass) ;;
        wrong (fun _ => EObjectExpected)) none.
    (** lines 9-11: a nil value is the text [null] *)
    Definition AddKeyValue_go (key : bytes) (value : option bytes) (path : list bytes) : flow unit out :=
      match value with None => AddKeyValue_value key (b "null") path | Some value => AddKeyValue_value key value path end.

    (** inter_add.go:81-139 [Add] *)
    Definition Add_go (value : bytes) (path : list bytes) : flow unit out :=
      func (
        if_ (fun _ => zlen json <? 2) (wrong (fun _ => bad 0)) pass ;;
        target path 91 93 EArrayExpected ;;
        read (braces 91 93) (fun x => if_ (fun _ => x)
          (if_empty (replaced value (fun s => d_end s - 1) (fun s => d_end s - 1)) ;;
           let val := zput (repeat 0%N (length value + 1)) 0 44%N in
           let val := firstn 1 val ++ copy (skipn 1 val) value in
           replaced val (fun s => d_end s - 1) (fun s => d_end s - 1)) pass) ;;
        wrong (fun _ => EArrayExpected)) none.

    (** inter_add.go:144-230 [Insert] *)
    Definition Insert_go (index : Z) (value : bytes) (path : list bytes) : flow unit out :=
      func (
        target path 91 93 EArrayExpected ;;
        read (braces 91 93) (fun x => if_ (fun _ => negb x) (wrong (fun _ => EArrayExpected)) pass) ;;
        located (path ++ [itoa index]) ;;
        widened ;;
        read alone (fun x => if_ (fun _ => x) (replaced (value ++ [44%N]) d_start d_start) pass) ;;
        read (fun s => zat json (d_endEdge s)) (fun c => if_ (fun _ => (c =? 44)%N) (replaced (value ++ [44%N]) d_start d_start) pass) ;;
        read (fun s => zat json (d_startEdge s)) (fun c => if_ (fun _ => (c =? 44)%N) (replaced (44%N :: value) (fun s => d_start s - 1) (fun s => d_start s - 1)) pass) ;;
        wrong (fun s => bad (d_start s))) none.

    (** inter_set.go:94-106 [Store]; a nil [value] put in place of another one is no bytes *)
    Definition Store_go (key : bytes) (value : option bytes) (path : list bytes) : flow unit out :=
      func (
        call (fun _ => returns (core_go fuel json false (path ++ [key]))) (fun r =>
          let '(_, start, end_, e) := r in
          set_ (fun s => d_to_start start (d_to_end end_ s)) ;;
          match e with
          | Some e =>
              if_ (fun _ => err_equal (Some e) 8) (call (fun _ => AddKeyValue_go key value path) (fun r => return_ (fun _ => r))) pass ;;
              wrong (fun _ => e)
          | None => pass
          end) ;;
        set_value (match value with None => [] | Some v => v end)) none.
  End Text.
End UpdateGo.

(** Some texts, by computation *)
Example update_go_runs :
  let j := b "{""k"" : [1 , 2] ,""x"":{""a"":""z"" }}" in
  Set_go 40 j (b "7") [b "x"; b "a"] = Ret (b "{""k"" : [1 , 2] ,""x"":{""a"":7 }}", None) /\
  SetKey_go 40 j (b "K") [b "k"] = Ret (b "{""K"" : [1 , 2] ,""x"":{""a"":""z"" }}", None) /\
  Delete_go 40 j [b "k"] = Ret (b "{""x"":{""a"":""z"" }}", None) /\ Delete_go 40 j [b "k"; b "0"] = Ret (b "{""k"" : [ 2] ,""x"":{""a"":""z"" }}", None) /\
  Add_go 40 j (b "3") [b "k"] = Ret (b "{""k"" : [1 , 2,3] ,""x"":{""a"":""z"" }}", None) /\
  Insert_go 40 j 1 (b "3") [b "k"] = Ret (b "{""k"" : [1 ,,3 2] ,""x"":{""a"":""z"" }}", None) /\
  AddKeyValue_go 40 j (b "y") None [] = Ret (b "{""k"" : [1 , 2] ,""x"":{""a"":""z"" },""y"":null}", None) /\
  Store_go 40 j (b "a") (Some (b "5")) [b "x"] = Ret (b "{""k"" : [1 , 2] ,""x"":{""a"":5 }}", None).
Proof. cbv zeta. repeat (match goal with |- _ /\ _ => split end; [vm_compute; reflexivity|]). vm_compute. reflexivity. Qed.
