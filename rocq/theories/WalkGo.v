(** The type tests, GetMap, GetAll, GetAllMap and walk once more, statement by statement; WalkGoProofs.v shows that they
    compute what the models in Iter.v and Walk.v compute.  [pf] is the set of texts strconv.ParseFloat accepts. *)
From Coq Require Import String.
From Verif Require Import GoStd Errors GoLang CoreGo IterGo ListGo SplitGo MakeGo.
From Verif Require Iter Walk.

Local Open Scope Z_scope.

Section Types.
  Variables (fuel : nat) (json : bytes) (path : list bytes).

  (** inter_type.go:17-23 [IsObject], 28-34 [IsArray], 39-45 [IsValue] *)
  Definition is_ (control : bytes) (equal : bool) : flow unit (bool * option err) :=
    func (
      call (fun _ => typeControlCore_go fuel json path control equal) (fun r =>
        let '(state, _, e) := r in
        match e with Some e => return_ (fun _ => (false, Some e)) | None => pass end ;;
        return_ (fun _ => (state, None)))) tt.
  Definition IsObject_go := is_ [91%N; 123%N] true.
  Definition IsArray_go := is_ [91%N] true.
  Definition IsValue_go := is_ [91%N; 123%N] false.

  (** inter_type.go:6-11, 49-81 [GetType]; with an error the type is the empty string *)
  Definition GetType_go (pf : bytes -> bool) : flow unit (bytes * option err) :=
    func (
      call (fun _ => typeControlCore_go fuel json path [] false) (fun r =>
        let '(_, start, e) := r in
        match e with Some e => return_ (fun _ => ([], Some e)) | None => pass end ;;
        read (fun _ => zat json start) (fun c =>
        if_ (fun _ => (c =? 91)%N) (return_ (fun _ => (b "array", None))) (
        if_ (fun _ => (c =? 123)%N) (return_ (fun _ => (b "object", None))) (
        if_ (fun _ => (c =? 34)%N) (return_ (fun _ => (b "string", None))) pass)))) ;;
      call (fun _ => GetString_go fuel json path) (fun r =>
        let '(val, e) := r in
        match e with Some e => return_ (fun _ => ([], Some e)) | None => pass end ;;
        if_ (fun _ => bytes_eqb val (b "true") || bytes_eqb val (b "false")) (return_ (fun _ => (b "boolean", None))) (
        if_ (fun _ => bytes_eqb val (b "null")) (return_ (fun _ => (b "null", None))) pass) ;;
        if_ (fun _ => match parse_int 64 val with Some _ => true | None => false end) (return_ (fun _ => (b "number", None))) pass ;;
        if_ (fun _ => pf val) (return_ (fun _ => (b "number", None))) pass ;;
        return_ (fun _ => (b "string", None)))) tt.

  (** inter_get.go:593-625 [GetMap]: nil is [None]; the state of the iterations is what their callbacks change, the map
      and the counter *)
  Definition GetMap_go : flow unit (option Iter.gomap * option err) :=
    func (
      if_ (fun _ => bytes_eqb json (b "[]") || bytes_eqb json (b "{}")) (return_ (fun _ => (None, None))) pass ;;
      call (fun _ => getStartEnd_go fuel json path) (fun r =>
        let '(start, end_, e) := r in
        match e with Some e => return_ (fun _ => (None, Some e)) | None => pass end ;;
        read (fun _ => and_also (do c <- zat json start; Ok (c =? 123)%N) (do c <- zat json end_; Ok (c =? 125)%N)) (fun x =>
        if_ (fun _ => x)
          (call (fun _ => IterateKeyValue_go fuel json (fun m key val => (Iter.map_put key val m, (true, None))) path []) (fun r =>
             let '(mainMap, e) := r in
             match e with Some e => return_ (fun _ => (None, Some e)) | None => pass end ;;
             return_ (fun _ => (Some mainMap, None)))) pass) ;;
        read (fun _ => and_also (do c <- zat json start; Ok (c =? 91)%N) (do c <- zat json end_; Ok (c =? 93)%N)) (fun x =>
        if_ (fun _ => x)
          (call (fun _ => IterateArray_go fuel json (fun s val => ((Iter.map_put (itoa (snd s)) val (fst s), snd s + 1), (true, None))) path ([], 0)) (fun r =>
             let '(mainMap, _, e) := r in
             match e with Some e => return_ (fun _ => (None, Some e)) | None => pass end ;;
             return_ (fun _ => (Some mainMap, None)))) pass) ;;
        return_ (fun _ => (None, Some (bad start))))) tt.

  (** inter_get.go:629-641 [GetAll], 645-657 [GetAllMap] *)
  Definition GetAll_go (keys : list bytes) : flow unit (list bytes * option err) :=
    func (
      range_ keys (fun _ k =>
        call (fun _ => GetString_go fuel json (path ++ [k])) (fun r =>
        let '(val, e) := r in
        match e with Some e => return_ (fun _ => ([], Some e)) | None => pass end ;;
        set_ (fun results => results ++ [val]))) ;;
      return_ (fun results => (results, None))) [].
  Definition GetAllMap_go (keys : list bytes) : flow unit (option Iter.gomap * option err) :=
    func (
      range_ keys (fun _ k =>
        call (fun _ => GetString_go fuel json (path ++ [k])) (fun r =>
        let '(val, e) := r in
        match e with Some e => return_ (fun _ => (None, Some e)) | None => pass end ;;
        set_ (fun results => Iter.map_put k val results))) ;;
      return_ (fun results => (Some results, None))) [].
End Types.

(** ** walk

    The state of the iterations that walk starts: the caller's state and the counter [i]; a walk below that does not
    return ends the iteration and what is left is [Stop].  [depth] bounds the recursion, [fuel] the loops. *)
Section Walk.
  Context {St : Type}.
  Variables (pf : bytes -> bool) (fuel : nat) (json : bytes).
  Variable cb : St -> bytes -> bytes -> list bytes -> St * (bool * option err).

  Inductive at_work : Type := Going (s : St) (i : Z) | Stop (r : flow unit (St * option err)).
  Definition one (w : at_work) (step : St -> Z -> flow unit (St * option err)) : at_work * (bool * option err) :=
    match w with
    | Stop r => (Stop r, (false, Some EEmpty))
    | Going s i =>
        match step s i with
        | Ret (s', Some e) => (Going s' i, (false, Some e))
        | Ret (s', None) => (Going s' (i + 1), (true, None))
        | r => (Stop r, (false, Some EEmpty))
        end
    end.
  Definition iterated (r : flow unit (at_work * option err)) : flow unit (St * option err) :=
    match r with Ret (Going s _, e) => Ret (s, e) | Ret (Stop r, _) => r | Out => Out | _ => Pan end.

  (** [if err != nil { return err }] *)
  Definition returned (r : St * option err) : cmd St (St * option err) :=
    set_ (fun _ => fst r) ;; match snd r with Some e => return_ (fun s => (s, Some e)) | None => pass end.
  (** walk.go:15-63 [walk] *)
  Fixpoint walk_go (depth : nat) (path : list bytes) (s : St) : flow unit (St * option err) :=
    match depth with
    | O => Out
    | S depth =>
        func (
          call (fun _ => GetType_go fuel json path pf) (fun r =>
            let '(t, e) := r in
            match e with Some e => return_ (fun s => (s, Some e)) | None => pass end ;;
            if_ (fun _ => bytes_eqb t (b "object"))
              (call (fun s => iterated (IterateKeyValue_go fuel json (fun w key _ => one w (fun s _ => walk_go depth (path ++ [key]) s)) path (Going s 0))) returned)
            (if_ (fun _ => bytes_eqb t (b "array"))
              (call (fun s => iterated (IterateArray_go fuel json (fun w _ => one w (fun s i => walk_go depth (path ++ [itoa i]) s)) path (Going s 0))) returned)
              (var (fun _ => []) (
                 if_ (fun _ => negb (zlen path =? 0)) (read (fun _ => zat path (zlen path - 1)) (fun k => set_ (fun s => (fst s, k)))) pass ;;
                 call (fun _ => Get_go fuel json path) (fun r =>
                   let '(val, e) := r in
                   match e with Some e => return_ (fun s => (fst s, Some e)) | None => pass end ;;
                   (fun s => let '(s', (keepGoing, e)) := cb (fst s) (snd s) val path in
                             match e with
                             | Some e => Ret (s', Some e)
                             | None => (if_ (fun _ => negb keepGoing) (return_ (fun s => (fst s, None))) pass) (s', snd s)
                             end))))) ;;
            return_ (fun s => (s, None)))) s
    end.
  (** walk.go:10-13 [Walk] *)
  Definition Walk_go (depth : nat) (s : St) : flow unit (St * option err) := walk_go depth [] s.
End Walk.
