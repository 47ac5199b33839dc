(** inter_core.go once more, line by line: loops over index variables, [int]s that may be negative, the table
    [isJSONChar] of 256 entries, break, continue and goto.  Core.v is the model all other files use; CoreGoProofs.v
    shows that both compute the same.  A variable lives in the state of its block; [curr] and [err], which are not
    assigned again, are bound by [read]. *)
From Coq Require Import String.
From Verif Require Import GoStd GoLang.
From Verif Require Core.
Notation space := Core.space.

Local Open Scope Z_scope.

Definition result : Type := Z * Z * Z * option err.
Definition fail {S : Type} (e : S -> err) : cmd S result := return_ (fun s => (-1, -1, -1, Some (e s))).
Definition bad (i : Z) : err := EBadJSON (Z.to_nat i).

(** inter_core.go:16-45: the variables of the function *)
Record fr : Type := Fr { offset : Z; currentPath : bytes; isJSONChar : list bool; braceType : N; keyStart : Z; k : Z }.
Definition to_offset x f := Fr x (currentPath f) (isJSONChar f) (braceType f) (keyStart f) (k f).
Definition to_path x f := Fr (offset f) x (isJSONChar f) (braceType f) (keyStart f) (k f).
Definition to_char c v f := Fr (offset f) (currentPath f) (zput (isJSONChar f) c v) (braceType f) (keyStart f) (k f).
Definition to_brace x f := Fr (offset f) (currentPath f) (isJSONChar f) x (keyStart f) (k f).
Definition to_keyStart x f := Fr (offset f) (currentPath f) (isJSONChar f) (braceType f) x (k f).
Definition to_k x f := Fr (offset f) (currentPath f) (isJSONChar f) (braceType f) (keyStart f) x.

(** inter_core.go:86-95: the variables of the array search *)
Record ar : Type := Ar { a_out : fr; a_level : Z; a_inQuote : bool; a_found : bool; indexCount : Z }.
Definition a_to_out f (s : ar * Z) := (Ar (f (a_out (fst s))) (a_level (fst s)) (a_inQuote (fst s)) (a_found (fst s)) (indexCount (fst s)), snd s).
Definition a_to_level x (s : ar * Z) := (Ar (a_out (fst s)) x (a_inQuote (fst s)) (a_found (fst s)) (indexCount (fst s)), snd s).
Definition a_to_inQuote x (s : ar * Z) := (Ar (a_out (fst s)) (a_level (fst s)) x (a_found (fst s)) (indexCount (fst s)), snd s).
Definition a_to_found x (s : ar * Z) := (Ar (a_out (fst s)) (a_level (fst s)) (a_inQuote (fst s)) x (indexCount (fst s)), snd s).
Definition a_to_count x (s : ar * Z) := (Ar (a_out (fst s)) (a_level (fst s)) (a_inQuote (fst s)) (a_found (fst s)) x, snd s).

(** inter_core.go:188-198: the variables of the key search *)
Record ky : Type := Ky { o_out : fr; o_inQuote : bool; o_found : bool; start : Z; end_ : Z; o_level : Z }.
Definition o_to_out f (s : ky * Z) := (Ky (f (o_out (fst s))) (o_inQuote (fst s)) (o_found (fst s)) (start (fst s)) (end_ (fst s)) (o_level (fst s)), snd s).
Definition o_to_inQuote x (s : ky * Z) := (Ky (o_out (fst s)) x (o_found (fst s)) (start (fst s)) (end_ (fst s)) (o_level (fst s)), snd s).
Definition o_to_found x (s : ky * Z) := (Ky (o_out (fst s)) (o_inQuote (fst s)) x (start (fst s)) (end_ (fst s)) (o_level (fst s)), snd s).
Definition o_to_start x (s : ky * Z) := (Ky (o_out (fst s)) (o_inQuote (fst s)) (o_found (fst s)) x (end_ (fst s)) (o_level (fst s)), snd s).
Definition o_to_end x (s : ky * Z) := (Ky (o_out (fst s)) (o_inQuote (fst s)) (o_found (fst s)) (start (fst s)) x (o_level (fst s)), snd s).
Definition o_to_level x (s : ky * Z) := (Ky (o_out (fst s)) (o_inQuote (fst s)) (o_found (fst s)) (start (fst s)) (end_ (fst s)) x, snd s).

Section CoreGo.
  Variables (fuel : nat) (json : bytes) (justStart : bool) (path : list bytes).

  (** The escape look-back, [for n := i - 1; n > -1; n-- { if json[n] != 92 { if odd { ...; break } else { ... } }; continue }];
      [yes] and [no] are what its branches do. *)
  Definition look_back {S R : Type} (i : S -> Z) (odd : Z -> Z -> bool) (yes no : cmd (S * Z) R) : cmd S R :=
    var (fun s => i s - 1) (for_ fuel (fun s => Ok (snd s >? -1)) (fun s => (fst s, snd s - 1)) (
      read (fun s => zat json (snd s)) (fun c =>
      if_ (fun _ => negb (c =? 92)%N) (if_ (fun s => odd (i (fst s)) (snd s)) yes no) pass ;;
      continue_))).
  Definition and_odd (i n : Z) : bool := negb (Z.land (i - n) 1 =? 0).
  Definition rem_even (i n : Z) : bool := Z.rem (i - 1 - n) 2 =? 0.
  Definition rem_odd (i n : Z) : bool := negb (Z.rem (i - n) 2 =? 0).

  (** inter_core.go:57-84: the search for index 0 *)
  Definition zeroth : cmd fr result :=
    set_ (fun f => to_offset (offset f + 1) f) ;;
    var offset (for_ fuel (fun s => Ok (snd s <? zlen json)) (fun s => (fst s, snd s + 1)) (
      read (fun s => zat json (snd s)) (fun curr =>
      if_ (fun _ => negb (space curr))
        (if_ (fun _ => (curr =? 123) || (curr =? 91))%N
          (set_ (fun s => (to_brace curr (fst s), snd s)) ;;
           if_ (fun s => negb (k (fst s) =? zlen path - 1))
             (read (fun s => zat path (k (fst s) + 1)) (fun p => set_ (fun s => (to_path p (fst s), snd s)))) pass ;;
           set_ (fun s => (to_offset (snd s) (fst s), snd s)) ;;
           break_)
          (if_ (fun s => negb (k (fst s) =? zlen path - 1)) (fail (fun _ => EIndexOutOfRange)) pass ;;
           break_))
        pass))).

  (** inter_core.go:98-179: the body of the search for another index *)
  Definition indexed_body (arrayIndex : Z) : cmd (ar * Z) result :=
    read (fun s => zat json (snd s)) (fun curr =>
    read (fun s => zat (isJSONChar (a_out (fst s))) (Z.of_N curr)) (fun is_char =>
    if_ (fun _ => negb is_char) continue_ pass ;;
    if_ (fun _ => (curr =? 34)%N)
      (look_back snd and_odd
         (set_ (fun s => (a_to_inQuote (negb (a_inQuote (fst (fst s)))) (fst s), snd s)) ;; break_)
         break_ ;;
       continue_) pass ;;
    if_ (fun s => a_inQuote (fst s)) continue_
      (if_ (fun s => negb (a_found (fst s)))
         (if_ (fun s => a_level (fst s) =? 1)
            (if_ (fun _ => (curr =? 44)%N)
               (set_ (fun s => a_to_count (indexCount (fst s) + 1) s) ;;
                if_ (fun s => indexCount (fst s) =? arrayIndex)
                  (set_ (a_to_found true) ;;
                   var (fun s => snd s + 1) (for_ fuel (fun s => Ok (snd s <? zlen json)) (fun s => (fst s, snd s + 1)) (
                     read (fun s => zat json (snd s)) (fun curr =>
                     if_ (fun _ => negb (space curr))
                       (if_ (fun _ => negb (curr =? 91)%N && negb (curr =? 123)%N)
                          (if_ (fun s => negb (k (a_out (fst (fst s))) =? zlen path - 1)) (fail (fun _ => EIndexOutOfRange)) pass ;;
                           break_) pass ;;
                        break_) pass))) ;;
                   if_ (fun s => k (a_out (fst s)) =? zlen path - 1)
                     (set_ (fun s => a_to_out (to_offset (snd s + 1)) s) ;; break_)
                     continue_) pass ;;
                continue_) pass) pass) pass ;;
       if_ (fun _ => (curr =? 91) || (curr =? 123))%N
         (if_ (fun s => a_found (fst s))
            (set_ (fun s => a_to_out (to_offset (snd s)) s) ;;
             set_ (a_to_out (to_brace curr)) ;;
             read (fun s => zat path (k (a_out (fst s)) + 1)) (fun p => set_ (a_to_out (to_path p))) ;;
             break_)
            (set_ (fun s => a_to_level (a_level (fst s) + 1) s) ;; continue_)) pass ;;
       if_ (fun _ => (curr =? 93) || (curr =? 125))%N
         (if_ (fun s => a_level (fst s) <? 2) (fail (fun _ => EIndexOutOfRange)) pass ;;
          set_ (fun s => a_to_level (a_level (fst s) - 1) s) ;;
          continue_) pass))).

  (** inter_core.go:85-185 *)
  Definition indexed (arrayIndex : Z) : cmd fr result := fun f =>
    match (set_ (fun s => fst (a_to_out (to_char 58 false) (s, 0))) ;;
           var (fun s => offset (a_out s)) (for_ fuel (fun s => Ok (snd s <? zlen json)) (fun s => (fst s, snd s + 1)) (indexed_body arrayIndex)) ;;
           if_ (fun s => negb (a_found s)) (fail (fun _ => EIndexOutOfRange)) pass ;;
           set_ (fun s => fst (a_to_out (to_char 58 true) (s, 0)))) (Ar f 0 false false 0) with
    | Nrm s => Nrm (a_out s) | Cnt s => Cnt (a_out s) | Brk s => Brk (a_out s) | Gto s => Gto (a_out s)
    | Ret r => Ret r | Pan => Pan | Out => Out
    end.

  (** inter_core.go:49-185: the array search *)
  Definition array_search : cmd fr result :=
    read (fun f => Ok (atoi (currentPath f))) (fun o =>
    match o with
    | None => fail (fun _ => EIndexExpected)
    | Some arrayIndex => if_ (fun _ => arrayIndex =? 0) zeroth (indexed arrayIndex)
    end).

  (** inter_core.go:282-332: the body of the jump; the state is that of the key search, [innerLevel] and [j] *)
  Definition jump_body : cmd (ky * Z * Z * Z) result :=
    read (fun s => zat json (snd s)) (fun curr =>
    read (fun s => zat (isJSONChar (o_out (fst (fst (fst s))))) (Z.of_N curr)) (fun is_char =>
    if_ (fun _ => negb is_char) continue_ pass ;;
    if_ (fun _ => (curr =? 34)%N)
      (look_back snd rem_even
         (set_ (fun s => let '(s, il, j, n) := s in (o_to_inQuote (negb (o_inQuote (fst s))) s, il, j, n)) ;; break_)
         break_ ;;
       continue_) pass ;;
    if_ (fun s => o_inQuote (fst (fst (fst s)))) continue_
      (if_ (fun _ => (curr =? 91) || (curr =? 123))%N
         (set_ (fun s => let '(s, il, j) := s in (s, il + 1, j)) ;; continue_) pass ;;
       if_ (fun _ => (curr =? 93) || (curr =? 125))%N
         (if_ (fun s => snd (fst s) <? k (o_out (fst (fst (fst s)))) + 1) (fail (fun s => EKeyNotFound (currentPath (o_out (fst (fst (fst s))))))) pass ;;
          set_ (fun s => let '(s, il, j) := s in (s, il - 1, j)) ;;
          continue_) pass ;;
       if_ (fun _ => (curr =? 44)%N)
         (if_ (fun s => snd (fst s) =? k (o_out (fst (fst (fst s)))) + 1)
            (set_ (fun s => let '(s, il, j) := s in ((fst s, j), il, j)) ;; break_)
            continue_) pass ;;
       continue_))).

  (** inter_core.go:199-385: the body of the key search *)
  Definition key_body : cmd (ky * Z) result :=
    read (fun s => zat json (snd s)) (fun curr =>
    read (fun s => zat (isJSONChar (o_out (fst s))) (Z.of_N curr)) (fun is_char =>
    if_ (fun _ => negb is_char) continue_ pass ;;
    if_ (fun _ => (curr =? 34)%N)
      (label
         (if_ (fun s => o_found (fst s)) continue_ pass ;;
          if_ (fun s => negb (o_level (fst s) =? k (o_out (fst s)) + 1)) continue_ pass ;;
          look_back snd and_odd
            (set_ (fun s => (o_to_inQuote (negb (o_inQuote (fst (fst s)))) (fst s), snd s)) ;; break_)
            goto_ ;;
          if_ (fun s => o_inQuote (fst s)) (set_ (fun s => o_to_start (snd s + 1) s) ;; continue_) pass ;;
          set_ (fun s => o_to_end (snd s) s)) ;;
       continue_) pass ;;
    if_ (fun s => o_inQuote (fst s)) continue_
      (if_ (fun s => o_level (fst s) =? k (o_out (fst s)) + 1)
         (if_ (fun _ => (curr =? 58)%N)
            (if_ (fun s => zlen (currentPath (o_out (fst s))) =? end_ (fst s) - start (fst s))
               (fun s =>
                  (* same := true; for j := 0; j < len(currentPath); j++ { ... } ; if same { ... } *)
                  leave ((var (fun _ => 0) (for_ fuel (fun t => Ok (snd t <? zlen (currentPath (o_out (fst (fst (fst t))))))) (fun t => (fst t, snd t + 1)) (
                      read (fun t => zat (currentPath (o_out (fst (fst (fst t))))) (snd t)) (fun x =>
                      read (fun t => zat json (start (fst (fst (fst t))) + snd t)) (fun y =>
                      if_ (fun _ => negb (x =? y)%N) (set_ (fun t => (fst (fst t), false, snd t)) ;; break_) continue_)))) ;;
                    if_ snd
                      (set_ (fun t => (o_to_out (to_offset (snd (fst t) + 1)) (fst t), snd t)) ;;
                       set_ (fun t => (o_to_found true (fst t), snd t)) ;;
                       if_ (fun t => k (o_out (fst (fst t))) =? zlen path - 1)
                         (set_ (fun t => (o_to_out (to_keyStart (start (fst (fst t)))) (fst t), snd t)) ;; break_)
                         continue_) pass) (s, true)))
               pass ;;
             set_ (o_to_out (to_char 44 true)) ;;
             set_ (o_to_out (to_char 58 false)) ;;
             var (fun s => o_level (fst s)) (var (fun s => snd (fst s)) (
               for_ fuel (fun s => Ok (snd s <? zlen json)) (fun s => (fst s, snd s + 1)) jump_body)) ;;
             set_ (o_to_out (to_char 44 false)) ;;
             set_ (o_to_out (to_char 58 true)) ;;
             continue_) pass) pass ;;
       if_ (fun _ => (curr =? 91)%N)
         (if_ (fun s => o_found (fst s))
            (set_ (fun s => o_to_out (to_offset (snd s)) s) ;;
             set_ (o_to_out (to_brace curr)) ;;
             read (fun s => zat path (k (o_out (fst s)) + 1)) (fun p => set_ (o_to_out (to_path p))) ;;
             break_)
            (set_ (fun s => o_to_level (o_level (fst s) + 1) s) ;; continue_)) pass ;;
       if_ (fun _ => (curr =? 123)%N)
         (if_ (fun s => o_found (fst s))
            (set_ (fun s => o_to_out (to_k (k (o_out (fst s)) + 1)) s) ;;
             read (fun s => zat path (k (o_out (fst s)))) (fun p => set_ (o_to_out (to_path p))) ;;
             set_ (o_to_found false)) pass ;;
          set_ (fun s => o_to_level (o_level (fst s) + 1) s) ;;
          continue_) pass ;;
       if_ (fun _ => (curr =? 93) || (curr =? 125))%N
         (if_ (fun s => o_level (fst s) <? k (o_out (fst s)) + 1) (fail (fun s => EKeyNotFound (currentPath (o_out (fst s))))) pass ;;
          set_ (fun s => o_to_level (o_level (fst s) - 1) s) ;;
          continue_) pass))).

  (** inter_core.go:187-391: the key search *)
  Definition key_search : cmd fr result := fun f =>
    match (set_ (fun s => fst (o_to_out (to_char 44 false) (s, 0))) ;;
           var (fun s => offset (o_out s)) (for_ fuel (fun s => Ok (snd s <? zlen json)) (fun s => (fst s, snd s + 1)) key_body) ;;
           if_ (fun s => negb (o_found s)) (fail (fun s => EKeyNotFound (currentPath (o_out s)))) pass ;;
           set_ (fun s => fst (o_to_out (to_char 44 true) (s, 0)))) (Ky f false false 0 0 (k f)) with
    | Nrm s => Nrm (o_out s) | Cnt s => Cnt (o_out s) | Brk s => Brk (o_out s) | Gto s => Gto (o_out s)
    | Ret r => Ret r | Pan => Pan | Out => Out
    end.

  (** inter_core.go:34-41 and 400-407 *)
  Definition trim : cmd fr result :=
    for_ fuel (fun f => do c <- zat json (offset f); Ok (space c)) (fun f => f) (
      if_ (fun f => offset f >? zlen json - 1) (fail (fun f => bad (offset f))) pass ;;
      set_ (fun f => to_offset (offset f + 1) f) ;;
      continue_).

  (** inter_core.go:413-456: the end of a value in brackets; the state is the function's, [level], [inQuote] and [i] *)
  Definition braced : cmd fr result :=
    var (fun _ => 0) (var (fun _ => false) (var (fun s => offset (fst (fst s))) (
      for_ fuel (fun s => Ok (snd s <? zlen json)) (fun s => (fst s, snd s + 1)) (
        read (fun s => zat json (snd s)) (fun curr =>
        read (fun s => zat (isJSONChar (fst (fst (fst s)))) (Z.of_N curr)) (fun is_char =>
        if_ (fun _ => negb is_char) continue_ pass ;;
        if_ (fun _ => (curr =? 34)%N)
          (look_back snd rem_odd
             (set_ (fun s => let '(f, l, q, i, n) := s in (f, l, negb q, i, n)) ;; break_)
             break_ ;;
           continue_) pass ;;
        if_ (fun s => snd (fst s)) continue_
          (if_ (fun _ => (curr =? 91) || (curr =? 123))%N
             (set_ (fun s => let '(f, l, q, i) := s in (f, l + 1, q, i)) ;; continue_) pass ;;
           if_ (fun _ => (curr =? 93) || (curr =? 125))%N
             (if_ (fun s => snd (fst (fst s)) =? 1)
                (return_ (fun s => (keyStart (fst (fst (fst s))), offset (fst (fst (fst s))), snd s + 1, None))) pass ;;
              set_ (fun s => let '(f, l, q, i) := s in (f, l - 1, q, i)) ;;
              continue_) pass ;;
           continue_))))))).

  (** inter_core.go:459-472: the end of a string *)
  Definition quoted : cmd fr result :=
    var (fun f => offset f + 1) (for_ fuel (fun s => Ok (snd s <? zlen json)) (fun s => (fst s, snd s + 1)) (
      read (fun s => zat json (snd s)) (fun curr =>
      if_ (fun _ => (curr =? 92)%N) (set_ (fun s => (fst s, snd s + 1)) ;; continue_)
        (if_ (fun _ => (curr =? 34)%N) (return_ (fun s => (keyStart (fst s), offset (fst s) + 1, snd s, None))) pass)))).

  (** inter_core.go:473-483: the end of another value *)
  Definition other : cmd fr result :=
    var offset (for_ fuel (fun s => Ok (snd s <? zlen json)) (fun s => (fst s, snd s + 1)) (
      read (fun s => zat json (snd s)) (fun curr =>
      if_ (fun _ => space curr || (curr =? 44) || (curr =? 93) || (curr =? 125))%N
        (if_ (fun s => offset (fst s) =? snd s) (fail (fun _ => EEmptyArray)) pass ;;
         return_ (fun s => (keyStart (fst s), offset (fst s), snd s, None))) pass))).

  (** inter_core.go:34-489 *)
  Definition search : cmd fr result :=
    trim ;;
    read (fun f => zat json (offset f)) (fun c => set_ (to_brace c)) ;;
    for_ fuel (fun f => Ok (k f <? zlen path)) (fun f => to_k (k f + 1) f) (
      if_ (fun f => (braceType f =? 91)%N) array_search key_search) ;;
    if_ (fun f => offset f =? 0) (fail (fun _ => bad 0)) pass ;;
    trim ;;
    (if justStart then return_ (fun f => (keyStart f, offset f, 0, None)) else pass) ;;
    read (fun f => zat json (offset f)) (fun c =>
      if_ (fun _ => (c =? 91) || (c =? 123))%N braced (if_ (fun _ => (c =? 34)%N) quoted other)) ;;
    fail (fun f => bad (offset f)).

  (** inter_core.go:26-32 *)
  Definition chars : list N := [34; 44; 58; 91; 93; 123; 125]%N.
  Definition table : list bool := fold_left (fun t v => zput t v true) chars (repeat false 256).

  (** inter_core.go:10-490 [core] *)
  Definition core_go : flow fr result :=
    if zlen json <? 2 then Ret (-1, -1, -1, Some (bad 0))
    else match zat path 0 with
         | Ok p => search (Fr 0 p table 0 (-1) 0)
         | _ => Pan
         end.
End CoreGo.

(** Some texts, by computation *)
Example core_go_runs :
  core_go 99 (b "{""a"":[1, {""b"":""x,]""}],""c"":5}") false [b "a"; b "1"; b "b"] = Ret (11, 15, 18, None) /\
  core_go 99 (b "{""a"":[1, {""b"":""x,]""}],""c"":5}") false [b "c"] = Ret (23, 26, 27, None) /\
  core_go 99 (b "{""a"":[1, {""b"":""x,]""}],""c"":5}") false [b "a"; b "2"] = Ret (-1, -1, -1, Some EIndexOutOfRange).
Proof. repeat split; vm_compute; reflexivity. Qed.
