(** The listings of inter_get.go, the type tests, Length and the position of a value once more, statement by statement;
    ListGoProofs.v shows that they compute what the models in Iter.v compute. *)
From Coq Require Import String.
From Verif Require Import GoStd Errors GoLang CoreGo IterGo.

Local Open Scope Z_scope.

(** inter_get.go:339-342: the variables of the listings; [var keys, values []string] *)
Record ls : Type := Ls { l_start : Z; l_keyStart : Z; l_keyEnd : Z; l_inQuote : bool; l_level : Z; l_keys : list bytes; l_values : list bytes }.
Definition l_to_start x s := Ls x (l_keyStart s) (l_keyEnd s) (l_inQuote s) (l_level s) (l_keys s) (l_values s).
Definition l_to_keyStart x s := Ls (l_start s) x (l_keyEnd s) (l_inQuote s) (l_level s) (l_keys s) (l_values s).
Definition l_to_keyEnd x s := Ls (l_start s) (l_keyStart s) x (l_inQuote s) (l_level s) (l_keys s) (l_values s).
Definition l_to_inQuote x s := Ls (l_start s) (l_keyStart s) (l_keyEnd s) x (l_level s) (l_keys s) (l_values s).
Definition l_to_level x s := Ls (l_start s) (l_keyStart s) (l_keyEnd s) (l_inQuote s) x (l_keys s) (l_values s).
Definition l_to_keys x s := Ls (l_start s) (l_keyStart s) (l_keyEnd s) (l_inQuote s) (l_level s) x (l_values s).
Definition l_to_values x s := Ls (l_start s) (l_keyStart s) (l_keyEnd s) (l_inQuote s) (l_level s) (l_keys s) x.

Section ListGo.
  Variables (fuel : nat) (json : bytes) (path : list bytes).

  (** [if len(path) == 0 { for space(json[start]) { if start > len(json)-1 { return ..., errBadJSON(start) }; start++; continue } } else
      { _, start, _, err = core(json, true, path...); if err != nil { return ..., err } }]: inter_get.go:319-332, 409-422, 501-514,
      inter_type.go:139-153 *)
  Definition find_start {S R : Type} (get : S -> Z) (put : Z -> S -> S) (fails : err -> R) : cmd S R :=
    if_ (fun _ => zlen path =? 0)
      (for_ fuel (fun s => do c <- zat json (get s); Ok (space c)) (fun s => s) (
         if_ (fun s => get s >? zlen json - 1) (return_ (fun s => fails (bad (get s)))) pass ;;
         set_ (fun s => put (get s + 1) s) ;;
         continue_))
      (call (fun _ => returns (core_go fuel json true path)) (fun r =>
         let '(_, start, _, e) := r in
         set_ (put start) ;;
         match e with Some e => return_ (fun _ => fails e) | None => pass end)).

  Definition lset {R : Type} (f : ls -> ls) : cmd (ls * Z) R := set_ (fun s => (f (fst s), snd s)).
  (** [x = i + d] *)
  Definition lset_i {R : Type} (f : Z -> ls -> ls) (d : Z) : cmd (ls * Z) R := set_ (fun s => (f (snd s + d) (fst s), snd s)).

  (** inter_get.go:349-362, 439-452, 531-544: inside a string the look-back, else the string begins *)
  Definition at_quote {R : Type} : cmd (ls * Z) R :=
    if_ (fun s => l_inQuote (fst s))
      (look_back fuel json snd rem_odd (set_ (fun t => (l_to_inQuote (negb (l_inQuote (fst (fst t)))) (fst (fst t)), snd (fst t), snd t)) ;; break_) goto_)
      (lset (fun s => l_to_inQuote (negb (l_inQuote s)) s)).
  (** inter_get.go:348-370, 530-552, with [keyStart] and [keyEnd] *)
  Definition key_quote {R : Type} : cmd (ls * Z) R :=
    label (at_quote ;;
           if_ (fun s => l_inQuote (fst s)) (lset_i l_to_keyStart 0 ;; continue_) pass ;;
           lset_i l_to_keyEnd 0) ;;
    continue_.
  (** [value := cleanValueString(string(json[start:i])); values = append(values, value)] *)
  Definition add_value {R : Type} : cmd (ls * Z) R :=
    read (fun s => zslice json (l_start (fst s)) (snd s)) (fun v =>
    call (fun _ => cleanValueString_go fuel v) (fun value => lset (fun s => l_to_values (l_values s ++ [value]) s))).
  (** [key := json[keyStart+1 : keyEnd]; keys = append(keys, string(key))] *)
  Definition add_key {R : Type} : cmd (ls * Z) R :=
    read (fun s => zslice json (l_keyStart (fst s) + 1) (l_keyEnd (fst s))) (fun key => lset (fun s => l_to_keys (l_keys s ++ [key]) s)).

  Definition open_ {R : Type} (curr : N) : cmd (ls * Z) R :=
    if_ (fun _ => (curr =? 91) || (curr =? 123))%N (lset (fun s => l_to_level (l_level s + 1) s) ;; continue_) pass.

  (** inter_get.go:343-394 *)
  Definition keys_body {R : Type} : cmd (ls * Z) R :=
    read (fun s => zat json (snd s)) (fun curr =>
    read (fun s => zat (flags [34; 44; 58; 91; 93; 123; 125]%N) (Z.of_N curr)) (fun is_char =>
    if_ (fun _ => negb is_char) continue_ pass ;;
    if_ (fun _ => (curr =? 34)%N) key_quote pass ;;
    if_ (fun s => l_inQuote (fst s)) continue_
      (open_ curr ;;
       if_ (fun _ => (curr =? 93) || (curr =? 125))%N
         (if_ (fun s => l_level (fst s) =? 1) break_ pass ;;
          lset (fun s => l_to_level (l_level s - 1) s) ;;
          continue_) pass ;;
       if_ (fun _ => (curr =? 58)%N)
         (if_ (fun s => l_level (fst s) =? 1) add_key pass ;;
          continue_) pass))).

  (** inter_get.go:431-485 *)
  Definition values_body {R : Type} : cmd (ls * Z) R :=
    read (fun s => zat json (snd s)) (fun curr =>
    read (fun s => zat (flags [34; 44; 58; 91; 93; 123; 125]%N) (Z.of_N curr)) (fun is_char =>
    if_ (fun _ => negb is_char) continue_ pass ;;
    if_ (fun _ => (curr =? 34)%N) (label at_quote ;; continue_) pass ;;
    if_ (fun s => l_inQuote (fst s)) continue_
      (open_ curr ;;
       if_ (fun _ => (curr =? 93) || (curr =? 125))%N
         (if_ (fun s => l_level (fst s) =? 1) (add_value ;; break_) pass ;;
          lset (fun s => l_to_level (l_level s - 1) s) ;;
          continue_) pass ;;
       if_ (fun _ => (curr =? 58)%N)
         (if_ (fun s => l_level (fst s) =? 1) (lset_i l_to_start 1) pass ;;
          continue_) pass ;;
       if_ (fun _ => (curr =? 44)%N)
         (if_ (fun s => l_level (fst s) =? 1) (add_value ;; lset_i l_to_start 1) pass) pass))).

  (** inter_get.go:525-586 *)
  Definition kvs_body {R : Type} : cmd (ls * Z) R :=
    read (fun s => zat json (snd s)) (fun curr =>
    read (fun s => zat (flags [34; 44; 58; 91; 93; 123; 125]%N) (Z.of_N curr)) (fun is_char =>
    if_ (fun _ => negb is_char) continue_ pass ;;
    if_ (fun _ => (curr =? 34)%N) key_quote pass ;;
    if_ (fun s => l_inQuote (fst s)) continue_
      (open_ curr ;;
       if_ (fun _ => (curr =? 93) || (curr =? 125))%N
         (if_ (fun s => l_level (fst s) =? 1) (add_value ;; break_) pass ;;
          lset (fun s => l_to_level (l_level s - 1) s) ;;
          continue_) pass ;;
       if_ (fun _ => (curr =? 58)%N)
         (if_ (fun s => l_level (fst s) =? 1) (add_key ;; lset_i l_to_start 1) pass ;;
          continue_) pass ;;
       if_ (fun _ => (curr =? 44)%N)
         (if_ (fun s => l_level (fst s) =? 1) (add_value ;; lset_i l_to_start 1) pass) pass))).

  Definition listing {R : Type} (body : cmd (ls * Z) R) (fails : err -> R) (done : ls -> R) : flow unit R :=
    func (
      if_ (fun _ => bytes_eqb json (b "{}")) (return_ (fun _ => fails EEmpty)) pass ;;
      find_start l_start l_to_start fails ;;
      read (fun s => zat json (l_start s)) (fun c =>
      if_ (fun _ => (c =? 123)%N)
        (var l_start (for_ fuel (fun s => Ok (snd s <? zlen json)) (fun s => (fst s, snd s + 1)) body) ;;
         return_ done) pass) ;;
      return_ (fun _ => fails EObjectExpected)) (Ls 0 0 0 false 0 [] []).

  (** inter_get.go:312-398 [GetKeys], 402-489 [GetValues], 493-590 [GetKeysValues] *)
  Definition GetKeys_go : flow unit (list bytes * option err) := listing keys_body (fun e => ([], Some e)) (fun s => (l_keys s, None)).
  Definition GetValues_go : flow unit (list bytes * option err) := listing values_body (fun e => ([], Some e)) (fun s => (l_values s, None)).
  Definition GetKeysValues_go : flow unit (list bytes * list bytes * option err) :=
    listing kvs_body (fun e => ([], [], Some e)) (fun s => (l_keys s, l_values s, None)).

  (** ** Positions and types *)

  (** inter_type.go:154-160: [for _, v := range control]; the state is [start] *)
  Fixpoint each {S R : Type} (l : bytes) (body : N -> cmd S R) : cmd S R :=
    match l with [] => pass | v :: r => body v ;; each r body end.
  (** inter_type.go:133-165 [typeControlCore]; the position returned with an error is not looked at *)
  Definition typeControlCore_go (control : bytes) (equal : bool) : flow unit (bool * Z * option err) :=
    func (
      if_ (fun _ => zlen json =? 0) (return_ (fun _ => (false, -1, Some (bad 0)))) pass ;;
      find_start (fun s => s) (fun x _ => x) (fun e => (false, -1, Some e)) ;;
      each control (fun v =>
        read (fun s => zat json s) (fun c =>
        if_ (fun _ => (c =? v)%N)
          (if_ (fun _ => equal) (return_ (fun s => (true, s, None))) pass ;;
           return_ (fun s => (false, s, None))) pass)) ;;
      if_ (fun _ => equal) (return_ (fun s => (false, s, None))) pass ;;
      return_ (fun s => (true, s, None))) 0.

  (** [for space(json[end]) { if test { return ..., errBadJSON(x) }; end--; continue }]: utils.go:174-180, inter_type.go:102-108.
      The state is [start] and [end] *)
  Definition back {R : Type} (test : Z * Z -> bool) (fails : Z * Z -> R) : cmd (Z * Z) R :=
    for_ fuel (fun s => do c <- zat json (snd s); Ok (space c)) (fun s => s) (
      if_ test (return_ fails) pass ;;
      set_ (fun s => (fst s, snd s - 1)) ;;
      continue_).
  (** the same forward, utils.go:166-172, inter_type.go:95-101 *)
  Definition forth {R : Type} (fails : Z * Z -> R) : cmd (Z * Z) R :=
    for_ fuel (fun s => do c <- zat json (fst s); Ok (space c)) (fun s => s) (
      if_ (fun s => fst s >? zlen json - 1) (return_ fails) pass ;;
      set_ (fun s => (fst s + 1, snd s)) ;;
      continue_).
  (** [_, start, end, err = core(json, false, path...); if err != nil { return ..., err }] *)
  Definition located {R : Type} (fails : err -> R) : cmd (Z * Z) R :=
    call (fun _ => returns (core_go fuel json false path)) (fun r =>
      let '(_, start, end_, e) := r in
      set_ (fun _ => (start, end_)) ;;
      match e with Some e => return_ (fun _ => fails e) | None => pass end).

  (** utils.go:151-183 [getStartEnd] *)
  Definition getStartEnd_go : flow unit (Z * Z * option err) :=
    func (
      if_ (fun _ => zlen json <? 2) (return_ (fun _ => (-1, -1, Some (bad 0)))) pass ;;
      if_ (fun _ => negb (zlen path =? 0))
        (located (fun e => (-1, -1, Some e)))
        (forth (fun s => (-1, -1, Some (bad (fst s)))) ;;
         set_ (fun s => (fst s, zlen json - 1)) ;;
         back (fun s => snd s <? fst s) (fun s => (-1, -1, Some (bad (fst s))))) ;;
      return_ (fun s => (fst s, snd s, None))) (0, 0).

  (** inter_type.go:87-131 [IsEmpty] *)
  Definition IsEmpty_go : flow unit (bool * option err) :=
    func (
      if_ (fun _ => zlen json =? 0) (return_ (fun _ => (false, Some (bad 0)))) pass ;;
      if_ (fun _ => zlen path =? 0)
        (forth (fun s => (false, Some (bad (fst s)))) ;;
         back (fun s => snd s <? 1) (fun s => (false, Some (bad (snd s)))))
        (located (fun e => (false, Some e)) ;;
         set_ (fun s => (fst s, snd s - 1))) ;;
      read (fun s => zat json (fst s)) (fun braceStart =>
      read (fun s => zat json (snd s)) (fun braceEnd =>
      if_ (fun _ => (braceStart =? 91) || (braceStart =? 123))%N
        (if_ (fun _ => negb (braceStart + 2 =? braceEnd)%N) (return_ (fun s => (false, Some (bad (snd s))))) pass ;;
         var (fun s => fst s + 1) (for_ fuel (fun t => Ok (snd t <? snd (fst t) - 1)) (fun t => (fst t, snd t + 1)) (
           read (fun t => zat json (snd t)) (fun c =>
           if_ (fun _ => negb (space c)) (return_ (fun _ => (false, None))) pass))))
        (return_ (fun _ => (false, Some EObjectExpected))))) ;;
      return_ (fun _ => (true, None))) (0, zlen json - 1).

  (** others.go:5-64 [Length]; the state of the loop is [start], [end], [length], [level], [inQuote] and [i] *)
  Record len : Type := Len { n_start : Z; n_end : Z; n_length : Z; n_level : Z; n_inQuote : bool }.
  Definition n_to_length x s := Len (n_start s) (n_end s) x (n_level s) (n_inQuote s).
  Definition n_to_level x s := Len (n_start s) (n_end s) (n_length s) x (n_inQuote s).
  Definition n_to_inQuote x s := Len (n_start s) (n_end s) (n_length s) (n_level s) x.
  Definition length_body {R : Type} : cmd (len * Z) R :=
    read (fun s => zat json (snd s)) (fun curr =>
    read (fun s => zat (flags [34; 44; 91; 93; 123; 125]%N) (Z.of_N curr)) (fun is_char =>
    if_ (fun _ => negb is_char) continue_ pass ;;
    if_ (fun _ => (curr =? 34)%N)
      (look_back fuel json snd rem_odd (set_ (fun t => (n_to_inQuote (negb (n_inQuote (fst (fst t)))) (fst (fst t)), snd (fst t), snd t)) ;; break_) break_ ;;
       continue_) pass ;;
    if_ (fun s => n_inQuote (fst s)) continue_ pass ;;
    if_ (fun _ => (curr =? 123) || (curr =? 91))%N (set_ (fun s => (n_to_level (n_level (fst s) + 1) (fst s), snd s)) ;; continue_) pass ;;
    if_ (fun _ => (curr =? 125) || (curr =? 93))%N (set_ (fun s => (n_to_level (n_level (fst s) - 1) (fst s), snd s)) ;; continue_) pass ;;
    if_ (fun s => (curr =? 44)%N && (n_level (fst s) =? 1)) (set_ (fun s => (n_to_length (n_length (fst s) + 1) (fst s), snd s))) pass)).
  Definition Length_go : flow unit (Z * option err) :=
    func (
      if_ (fun _ => bytes_eqb json (b "[]") || bytes_eqb json (b "{}")) (return_ (fun _ => (0, None))) pass ;;
      call (fun _ => getStartEnd_go) (fun r =>
        let '(start, end_, e) := r in
        set_ (fun _ => Len start end_ 0 0 false) ;;
        match e with Some e => return_ (fun _ => (-1, Some e)) | None => pass end) ;;
      var n_start (for_ fuel (fun s => Ok (snd s <? n_end (fst s))) (fun s => (fst s, snd s + 1)) length_body) ;;
      if_ (fun s => n_length s =? 0)
        (var (fun s => n_start s + 1) (for_ fuel (fun t => Ok (snd t <? n_end (fst t) - 1)) (fun t => (fst t, snd t + 1)) (
           read (fun t => zat json (snd t)) (fun c =>
           if_ (fun _ => negb (space c)) (return_ (fun _ => (1, None))) pass))) ;;
         return_ (fun _ => (0, None))) pass ;;
      return_ (fun s => (n_length s + 1, None))) (Len 0 0 0 0 false).
End ListGo.

(** Some texts, by computation *)
Example list_go_runs :
  let j := b "{""k"" : [1 , 2] ,""x"":{""a"":""z"" }}" in
  GetKeys_go 40 j [] = Ret ([b "k"; b "x"], None) /\ GetValues_go 40 j [] = Ret ([b "[1 , 2]"; b "{""a"":""z"" }"], None) /\
  GetKeysValues_go 40 j [b "x"] = Ret ([b "a"], [b "z"], None) /\ GetKeys_go 40 j [b "y"] = Ret ([], Some (EKeyNotFound (b "y"))) /\
  typeControlCore_go 40 j [b "k"] [91%N] true = Ret (true, 7, None) /\ IsEmpty_go 40 j [b "k"] = Ret (false, None) /\
  getStartEnd_go 40 j [b "k"] = Ret (7, 14, None) /\ Length_go 40 j [b "k"] = Ret (2, None) /\ Length_go 40 j [] = Ret (2, None).
Proof. repeat split; vm_compute; reflexivity. Qed.
