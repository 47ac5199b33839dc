(** The iterators and cleanValue once more, statement by statement; IterGoProofs.v shows that they compute what the
    models in Iter.v compute. *)
From Coq Require Import String.
From Verif Require Import GoStd Errors GoLang CoreGo.

Local Open Scope Z_scope.

(** [x && y] where [y] may panic *)
Definition and_also (x y : res bool) : res bool := do v <- x; if v : bool then y else Ok false.
Definition is_quote (x : bytes) (i : Z) : res bool := do c <- zat x i; Ok (c =? 34)%N.

(** The table [isJSONChar] with the entries of [chars] set *)
Definition flags (chars : list N) : list bool := fold_left (fun t v => zput t v true) chars (repeat false 256).

Section IterGo.
  Variable fuel : nat.

  (** utils.go:121-145 [cleanValue]; the state is [start] and [end] *)
  Definition cleanValue_go (str : bytes) : flow unit bytes :=
    func (
      if_ (fun _ => zlen str =? 0) (return_ (fun _ => str)) pass ;;
      var (fun s => fst s) (for_ fuel (fun t => Ok (snd t <? zlen str - 1)) (fun t => (fst t, snd t + 1)) (
        read (fun t => zat str (snd t)) (fun c =>
        if_ (fun _ => negb (space c)) break_ pass ;;
        set_ (fun t => let '(start, end_, i) := t in (start + 1, end_, i))))) ;;
      var (fun s => snd s) (for_ fuel (fun t => Ok (snd t >? fst (fst t))) (fun t => (fst t, snd t - 1)) (
        read (fun t => zat str (snd t)) (fun c =>
        if_ (fun _ => negb (space c)) break_ pass ;;
        set_ (fun t => let '(start, end_, i) := t in (start, end_ - 1, i))))) ;;
      read (fun s => and_also (is_quote str (fst s)) (is_quote str (snd s))) (fun quoted =>
      if_ (fun _ => quoted) (set_ (fun s => (fst s + 1, snd s)) ;; set_ (fun s => (fst s, snd s - 1))) pass) ;;
      read (fun s => zslice str (fst s) (snd s + 1)) (fun v => return_ (fun _ => v))) (0, zlen str - 1).

  (** utils.go:104-119 [cleanValueString] *)
  Definition cleanValueString_go (str : bytes) : flow unit bytes :=
    func (
      for_ fuel (fun s => do c <- zat str (fst s); Ok (space c && (fst s <? zlen str - 1))) (fun s => s) (set_ (fun s => (fst s + 1, snd s))) ;;
      set_ (fun s => (fst s, zlen str - 1)) ;;
      for_ fuel (fun s => do c <- zat str (snd s); Ok (space c && (snd s >? 1))) (fun s => s) (set_ (fun s => (fst s, snd s - 1))) ;;
      read (fun s => and_also (is_quote str (fst s)) (is_quote str (snd s))) (fun quoted =>
      if_ (fun _ => quoted) (set_ (fun s => (fst s + 1, snd s)) ;; set_ (fun s => (fst s, snd s - 1))) pass) ;;
      read (fun s => zslice str (fst s) (snd s + 1)) (fun v => return_ (fun _ => v))) (0, 0).

  Section Callback.
    Context {St : Type}.
    Definition out : Type := St * option err.

    (** ** IterateArray

        The variables of the function and what the callback has kept *)
    Record ia : Type := Ia { i_st : St; i_start : Z; i_inQuote : bool; i_level : Z }.
    Definition i_to_st x (s : ia * Z) := (Ia x (i_start (fst s)) (i_inQuote (fst s)) (i_level (fst s)), snd s).
    Definition i_to_start x (s : ia * Z) := (Ia (i_st (fst s)) x (i_inQuote (fst s)) (i_level (fst s)), snd s).
    Definition i_to_inQuote x (s : ia * Z) := (Ia (i_st (fst s)) (i_start (fst s)) x (i_level (fst s)), snd s).
    Definition i_to_level x (s : ia * Z) := (Ia (i_st (fst s)) (i_start (fst s)) (i_inQuote (fst s)) x, snd s).
    Variable json : bytes.

    (** inter_iter.go:42-100 *)
    Definition array_body (cb : St -> bytes -> St * (bool * option err)) : cmd (ia * Z) out :=
      let callback (c : bool -> option err -> cmd (ia * Z) out) : cmd (ia * Z) out :=
        read (fun s => zslice json (i_start (fst s)) (snd s)) (fun v => call (fun _ => cleanValue_go v) (fun v => fun s =>
          let '(st, (keepGoing, innerError)) := cb (i_st (fst s)) v in c keepGoing innerError (i_to_st st s))) in
      read (fun s => zat json (snd s)) (fun curr =>
      read (fun s => zat (flags [34; 44; 91; 93; 123; 125]%N) (Z.of_N curr)) (fun is_char =>
      if_ (fun _ => negb is_char) continue_ pass ;;
      if_ (fun _ => (curr =? 34)%N)
        (label
           (if_ (fun s => i_inQuote (fst s))
              (var (fun s => snd s - 1) (for_ fuel (fun t => Ok (snd t >? 0)) (fun t => (fst t, snd t - 1)) (
                 read (fun t => zat json (snd t)) (fun c =>
                 if_ (fun _ => (c =? 92)%N) continue_ pass ;;
                 if_ (fun t => negb (Z.rem (snd (fst t) - snd t) 2 =? 0))
                   (set_ (fun t => (i_to_inQuote (negb (i_inQuote (fst (fst t)))) (fst t), snd t)) ;; goto_) pass ;;
                 break_))))
              (set_ (fun s => i_to_inQuote (negb (i_inQuote (fst s))) s) ;; continue_)) ;;
         continue_) pass ;;
      if_ (fun s => i_inQuote (fst s)) continue_
        (if_ (fun _ => (curr =? 91) || (curr =? 123))%N (set_ (fun s => i_to_level (i_level (fst s) + 1) s) ;; continue_) pass ;;
         if_ (fun _ => (curr =? 93) || (curr =? 125))%N
           (if_ (fun s => i_level (fst s) <? 0) (return_ (fun s => (i_st (fst s), None))) pass ;;
            if_ (fun _ => (curr =? 93)%N)
              (if_ (fun s => i_level (fst s) =? 0) (callback (fun _ e => return_ (fun s => (i_st (fst s), e)))) pass) pass ;;
            set_ (fun s => i_to_level (i_level (fst s) - 1) s) ;;
            continue_) pass ;;
         if_ (fun s => i_level (fst s) =? 0)
           (if_ (fun _ => (curr =? 44)%N)
              (callback (fun keepGoing innerError =>
                 (match innerError with Some e => return_ (fun s => (i_st (fst s), Some e)) | None => pass end) ;;
                 if_ (fun _ => negb keepGoing) (return_ (fun s => (i_st (fst s), None))) pass ;;
                 set_ (fun s => i_to_start (snd s + 1) s) ;;
                 continue_)) pass) pass))).

    (** inter_iter.go:6-103 *)
    Definition IterateArray_go (cb : St -> bytes -> St * (bool * option err)) (path : list bytes) (st : St) : flow unit out :=
      func (
        if_ (fun _ => (zlen json =? 0) || (zlen json =? 1)) (return_ (fun s => (i_st s, Some (bad 0)))) pass ;;
        if_ (fun _ => zlen json =? 2)
          (if_ (fun _ => bytes_eqb json (b "[]")) (return_ (fun s => (i_st s, None))) pass ;; return_ (fun s => (i_st s, Some (bad 0)))) pass ;;
        if_ (fun _ => zlen path =? 0)
          (for_ fuel (fun s => do c <- zat json (i_start s); Ok (space c)) (fun s => s) (
             if_ (fun s => i_start s >? zlen json - 2) (return_ (fun s => (i_st s, Some (bad (i_start s))))) pass ;;
             set_ (fun s => fst (i_to_start (i_start s + 1) (s, 0))) ;;
             continue_))
          (call (fun _ => returns (core_go fuel json true path)) (fun r =>
             let '(_, start, _, e) := r in
             set_ (fun s => fst (i_to_start start (s, 0))) ;;
             match e with Some e => return_ (fun s => (i_st s, Some e)) | None => pass end)) ;;
        read (fun s => zat json (i_start s)) (fun c => if_ (fun _ => negb (c =? 91)%N) (return_ (fun s => (i_st s, Some EArrayExpected))) pass) ;;
        set_ (fun s => fst (i_to_start (i_start s + 1) (s, 0))) ;;
        var (fun s => i_start s) (for_ fuel (fun s => Ok (snd s <? zlen json)) (fun s => (fst s, snd s + 1)) (array_body cb)) ;;
        return_ (fun s => (i_st s, Some (bad (i_start s))))) (Ia st 0 false 0).

    (** ** IterateKeyValue *)
    Record kv : Type := Kv { v_st : St; v_start : Z; v_end : Z; v_keyStart : Z; v_keyEnd : Z; v_inQuote : bool; v_level : Z; v_key : bytes }.
    Definition v_to_st x (s : kv * Z) := (Kv x (v_start (fst s)) (v_end (fst s)) (v_keyStart (fst s)) (v_keyEnd (fst s)) (v_inQuote (fst s)) (v_level (fst s)) (v_key (fst s)), snd s).
    Definition v_to_start x (s : kv * Z) := (Kv (v_st (fst s)) x (v_end (fst s)) (v_keyStart (fst s)) (v_keyEnd (fst s)) (v_inQuote (fst s)) (v_level (fst s)) (v_key (fst s)), snd s).
    Definition v_to_end x (s : kv * Z) := (Kv (v_st (fst s)) (v_start (fst s)) x (v_keyStart (fst s)) (v_keyEnd (fst s)) (v_inQuote (fst s)) (v_level (fst s)) (v_key (fst s)), snd s).
    Definition v_to_keyStart x (s : kv * Z) := (Kv (v_st (fst s)) (v_start (fst s)) (v_end (fst s)) x (v_keyEnd (fst s)) (v_inQuote (fst s)) (v_level (fst s)) (v_key (fst s)), snd s).
    Definition v_to_keyEnd x (s : kv * Z) := (Kv (v_st (fst s)) (v_start (fst s)) (v_end (fst s)) (v_keyStart (fst s)) x (v_inQuote (fst s)) (v_level (fst s)) (v_key (fst s)), snd s).
    Definition v_to_inQuote x (s : kv * Z) := (Kv (v_st (fst s)) (v_start (fst s)) (v_end (fst s)) (v_keyStart (fst s)) (v_keyEnd (fst s)) x (v_level (fst s)) (v_key (fst s)), snd s).
    Definition v_to_level x (s : kv * Z) := (Kv (v_st (fst s)) (v_start (fst s)) (v_end (fst s)) (v_keyStart (fst s)) (v_keyEnd (fst s)) (v_inQuote (fst s)) x (v_key (fst s)), snd s).
    Definition v_to_key x (s : kv * Z) := (Kv (v_st (fst s)) (v_start (fst s)) (v_end (fst s)) (v_keyStart (fst s)) (v_keyEnd (fst s)) (v_inQuote (fst s)) (v_level (fst s)) x, snd s).

    (** inter_iter.go:179-184 and 208-213: [for j := start; j < i; j++ { if !space(json[j]) { start = j; break } }] *)
    Definition find_start : cmd (kv * Z) out :=
      var (fun s => v_start (fst s)) (for_ fuel (fun t => Ok (snd t <? snd (fst t))) (fun t => (fst t, snd t + 1)) (
        read (fun t => zat json (snd t)) (fun c =>
        if_ (fun _ => negb (space c)) (set_ (fun t => (v_to_start (snd t) (fst t), snd t)) ;; break_) pass))).
    (** inter_iter.go:185-190 and 214-219: [for j := i - 1; j > lo; j-- { if !space(json[j]) { end = j; break } }] *)
    Definition find_end (lo : kv * Z -> Z) : cmd (kv * Z) out :=
      var (fun s => snd s - 1) (for_ fuel (fun t => Ok (snd t >? lo (fst t))) (fun t => (fst t, snd t - 1)) (
        read (fun t => zat json (snd t)) (fun c =>
        if_ (fun _ => negb (space c)) (set_ (fun t => (v_to_end (snd t) (fst t), snd t)) ;; break_) pass))).

    (** inter_iter.go:136-246 *)
    Definition object_body (cb : St -> bytes -> bytes -> St * (bool * option err)) : cmd (kv * Z) out :=
      let callback (from to : kv * Z -> Z) (c : bool -> option err -> cmd (kv * Z) out) : cmd (kv * Z) out :=
        read (fun s => zslice json (from s) (to s)) (fun v => fun s =>
          let '(st, (keepGoing, innerError)) := cb (v_st (fst s)) (v_key (fst s)) v in c keepGoing innerError (v_to_st st s)) in
      let go_on (keepGoing : bool) (innerError : option err) : cmd (kv * Z) out :=
        (match innerError with Some e => return_ (fun s => (v_st (fst s), Some e)) | None => pass end) ;;
        if_ (fun _ => negb keepGoing) (return_ (fun s => (v_st (fst s), None))) pass in
      let quotes (s : kv * Z) : res bool := and_also (is_quote json (v_start (fst s))) (is_quote json (v_end (fst s))) in
      read (fun s => zat json (snd s)) (fun curr =>
      read (fun s => zat (flags [34; 44; 58; 91; 93; 123; 125]%N) (Z.of_N curr)) (fun is_char =>
      if_ (fun _ => negb is_char) continue_ pass ;;
      if_ (fun _ => (curr =? 34)%N)
        (label
           (if_ (fun s => v_inQuote (fst s))
              (look_back fuel json snd rem_odd (set_ (fun t => (v_to_inQuote (negb (v_inQuote (fst (fst t)))) (fst t), snd t)) ;; break_) goto_)
              (set_ (fun s => v_to_inQuote (negb (v_inQuote (fst s))) s)) ;;
            if_ (fun s => v_inQuote (fst s)) (set_ (fun s => v_to_keyStart (snd s) s) ;; continue_) pass ;;
            set_ (fun s => v_to_keyEnd (snd s) s)) ;;
         continue_) pass ;;
      if_ (fun s => v_inQuote (fst s)) continue_
        (if_ (fun _ => (curr =? 91) || (curr =? 123))%N (set_ (fun s => v_to_level (v_level (fst s) + 1) s) ;; continue_) pass ;;
         if_ (fun _ => (curr =? 93) || (curr =? 125))%N
           (if_ (fun _ => (curr =? 125)%N)
              (if_ (fun s => v_level (fst s) =? 1)
                 (find_start ;;
                  find_end (fun s => v_start (fst s) - 1) ;;
                  read quotes (fun quoted =>
                  if_ (fun _ => quoted)
                    (callback (fun s => v_start (fst s) + 1) (fun s => v_end (fst s)) (fun _ _ => return_ (fun s => (v_st (fst s), None)))) pass) ;;
                  callback (fun s => v_start (fst s)) (fun s => v_end (fst s) + 1) (fun _ _ => return_ (fun s => (v_st (fst s), None)))) pass) pass ;;
            if_ (fun s => v_level (fst s) =? 1) (return_ (fun s => (v_st (fst s), None))) pass ;;
            set_ (fun s => v_to_level (v_level (fst s) - 1) s) ;;
            continue_) pass ;;
         if_ (fun s => v_level (fst s) =? 1)
           (if_ (fun _ => (curr =? 44)%N)
              (set_ (fun s => v_to_end (snd s - 1) s) ;;
               find_start ;;
               find_end (fun s => v_start (fst s)) ;;
               read quotes (fun quoted =>
               if_ (fun _ => quoted)
                 (callback (fun s => v_start (fst s) + 1) (fun s => v_end (fst s)) go_on)
                 (callback (fun s => v_start (fst s)) (fun s => v_end (fst s) + 1) go_on)) ;;
               continue_) pass ;;
            if_ (fun _ => (curr =? 58)%N)
              (read (fun s => zslice json (v_keyStart (fst s) + 1) (v_keyEnd (fst s))) (fun v => set_ (v_to_key v)) ;;
               set_ (fun s => v_to_start (snd s + 1) s) ;;
               continue_) pass) pass))).

    (** inter_iter.go:108-250 *)
    Definition IterateKeyValue_go (cb : St -> bytes -> bytes -> St * (bool * option err)) (path : list bytes) (st : St) : flow unit out :=
      func (
        if_ (fun _ => bytes_eqb json (b "{}")) (return_ (fun s => (v_st s, Some EEmpty))) pass ;;
        if_ (fun _ => zlen path =? 0)
          (for_ fuel (fun s => do c <- zat json (v_start s); Ok (space c)) (fun s => s) (
             if_ (fun s => v_start s >? zlen json - 1) (return_ (fun s => (v_st s, Some (bad (v_start s))))) pass ;;
             set_ (fun s => fst (v_to_start (v_start s + 1) (s, 0))) ;;
             continue_))
          (call (fun _ => returns (core_go fuel json true path)) (fun r =>
             let '(_, start, _, e) := r in
             set_ (fun s => fst (v_to_start start (s, 0))) ;;
             match e with Some e => return_ (fun s => (v_st s, Some e)) | None => pass end)) ;;
        read (fun s => zat json (v_start s)) (fun c =>
        if_ (fun _ => (c =? 123)%N)
          (var (fun s => v_start s) (for_ fuel (fun s => Ok (snd s <? zlen json)) (fun s => (fst s, snd s + 1)) (object_body cb)) ;;
           return_ (fun s => (v_st s, None))) pass) ;;
        return_ (fun s => (v_st s, Some EObjectExpected))) (Kv st 0 0 0 0 false 0 []).
  End Callback.
End IterGo.

(** Some texts, by computation; the callbacks collect what they are handed *)
Example iterate_go_runs :
  cleanValue_go 9 (b "  ""a b"" ") = Ret (b "a b") /\ cleanValueString_go 9 (b "  ""a b"" ") = Ret (b "a b") /\
  IterateArray_go 30 (b "{""k"":[1, ""x"" ,{""y"":[2]}]}") (fun st v => (st ++ [v], (true, None))) [b "k"] [] = Ret ([b "1"; b "x"; b "{""y"":[2]}"], None) /\
  IterateKeyValue_go 30 (b "{""k"" : 1, ""x"":""z"" ,""y"":[2] }") (fun st k v => (st ++ [(k, v)], (true, None))) [] [] = Ret ([(b "k", b "1"); (b "x", b "z"); (b "y", b "[2]")], None).
Proof. repeat split; vm_compute; reflexivity. Qed.
