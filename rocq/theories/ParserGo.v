(** The methods of Parser once more, statement by statement, on nodes linked by pointers; ParserGoProofs.v shows that they
    compute what the models in Pointers.v (and by C46 those in Parser.v), Parser.v and Tree.v compute.

    The functions they call are a parameter: the transcriptions of Get, Set, SetKey, Delete, AddKeyValue, Add, Insert, replace,
    cleanValue and pCore, [as_written]; or the models of these, [models]. *)
From Coq Require Import String.
From Verif Require Import GoStd Core Errors Api Iter Parser Tree SpecPtr Pointers GoLang MakeGo.
From Verif Require IterGo SplitGo UpdateGo PCoreGo.

Local Open Scope Z_scope.

(** What is called: Get, Set, SetKey, Delete, AddKeyValue, Add and Insert on a text; pCore on a text, the nodes and one of
    them; cleanValue; replace *)
Record lib : Type := Lib {
  l_get : bytes -> list bytes -> flow unit (bytes * option err);
  l_set : bytes -> bytes -> list bytes -> flow unit (bytes * option err);
  l_setKey : bytes -> bytes -> list bytes -> flow unit (bytes * option err);
  l_delete : bytes -> list bytes -> flow unit (bytes * option err);
  l_addKeyValue : bytes -> bytes -> bytes -> list bytes -> flow unit (bytes * option err);
  l_add : bytes -> bytes -> list bytes -> flow unit (bytes * option err);
  l_insert : bytes -> Z -> bytes -> list bytes -> flow unit (bytes * option err);
  l_core : bytes -> heap -> nat -> flow unit heap;
  l_clean : bytes -> flow unit bytes;
  l_replace : bytes -> bytes -> Z -> Z -> flow unit bytes
}.

(** inter_get.go:12-21, inter_set.go:11-90, inter_delete.go:6-54, inter_add.go:8-230, parse_core.go:5-118, utils.go:8-14 and 121-145 *)
Definition as_written (fuel : nat) : lib := Lib
  (SplitGo.Get_go fuel) (UpdateGo.Set_go fuel) (UpdateGo.SetKey_go fuel) (UpdateGo.Delete_go fuel)
  (fun json key value => UpdateGo.AddKeyValue_go fuel json key (Some value)) (UpdateGo.Add_go fuel) (UpdateGo.Insert_go fuel)
  (PCoreGo.pCore_go fuel) (IterGo.cleanValue_go fuel) UpdateGo.replace_go.

(** A model's result; of a function on texts: a text and an error *)
Definition of_res {A : Type} (r : res A) : flow unit A := match r with Ok a => Ret a | _ => Pan end.
Definition two (r : res bytes) : flow unit (bytes * option err) :=
  match r with Ok v => Ret (v, None) | Err e => Ret ([], Some e) | Panic => Pan end.
Definition two_upd (r : Api.upd) : flow unit (bytes * option err) :=
  match r with Done v => Ret (v, None) | Fail v e => Ret (odef v, Some e) | UPanic => Pan end.
Definition models : lib := Lib
  (fun json path => two (Get json path)) (fun json v path => two_upd (Set_ json v path)) (fun json k path => two_upd (SetKey json k path))
  (fun json path => two_upd (Delete json path)) (fun json k v path => two_upd (AddKeyValue json k (Some v) path))
  (fun json v path => two_upd (Add_ json v path)) (fun json i v path => two_upd (Insert json i v path))
  (fun json h n => of_res (q_core json h n)) (fun v => of_res (cleanValue v))
  (fun json t i j => if (i <? 0) || (j <? 0) then Pan else of_res (replace json t (Z.to_nat i) (Z.to_nat j))).

(** [n.label], [n.value], [n.up], [n.down] for a pointer [n]; nil panics *)
Definition field {A : Type} (f : cell -> A) (h : heap) (n : option nat) : res A := do '(_, c) <- deref h n; Ok (f c).

(** parse_utils.go:110-123 [walk]; the state is [n] *)
Definition walk_go (h : heap) (n : nat) (path : list bytes) : flow unit (option nat * option err) :=
  func (
    range_ path (fun _ p =>
      label
        (read (field c_down h) (fun down => range_ down (fun _ d =>
           read (fun _ => field c_label h (Some d)) (fun l =>
           if_ (fun _ => bytes_eqb l p) (set_ (fun _ => Some d) ;; goto_) pass))) ;;
         return_ (fun _ => (None, Some (EKeyNotFound p)))) ;;
      continue_) ;;
    return_ (fun n => (n, None))) (Some n).

(** parse_utils.go:125-132 [getIndex] *)
Definition getIndex_go (h : heap) (n : option nat) : flow unit Z :=
  func (
    read (fun _ => do u <- field c_up h n; field c_down h u) (fun down => range_ down (fun i v =>
      read (fun _ => field c_label h (Some v)) (fun vl =>
      read (fun _ => field c_label h n) (fun nl =>
      if_ (fun _ => bytes_eqb vl nl) (return_ (fun _ => i)) pass)))) ;;
    return_ (fun _ => -1)) tt.

(** parse_utils.go:100-108 [deAttach]; the state is [newDown] *)
Definition deAttach_go (h : heap) (n : option nat) : flow unit heap :=
  func (
    read (fun _ => do u <- field c_up h n; do ds <- field c_down h u; if zlen ds - 1 <? 0 then Panic else Ok []) (fun x => set_ (fun _ => x)) ;;
    read (fun _ => do u <- field c_up h n; field c_down h u) (fun down => range_ down (fun _ d =>
      read (fun _ => field c_label h (Some d)) (fun dl =>
      read (fun _ => field c_label h n) (fun nl =>
      if_ (fun _ => negb (bytes_eqb dl nl)) (set_ (fun newDown => newDown ++ [d])) pass)))) ;;
    read (fun newDown => do u <- field c_up h n; write h u (set_down newDown)) (fun h => return_ (fun _ => h))) [].

(** parse_utils.go:84-98 [insert]; the state is the heap.  The loop of lines 90-92 ends after [lend] turns at the latest. *)
Definition insert_go (h : heap) (n up : option nat) (index : Z) : flow unit (heap * option err) :=
  func (
    read (fun h => field c_down h up) (fun down =>
    let lend := zlen down in
    if_ (fun _ => negb (lend =? 0))
      (if_ (fun _ => lend - 1 <? index) (return_ (fun h => (h, Some EIndexOutOfRange))) pass ;;
       var (fun _ => index) (for_ (S (length down)) (fun s => Ok (snd s <? lend)) (fun s => (fst s, snd s + 1)) (
         read (fun s => do ds <- field c_down (fst s) up; do d <- zat ds (snd s); write (fst s) (Some d) (set_label (itoa (snd s + 1)))) (fun h =>
         set_ (fun s => (h, snd s))))) ;;
       read (fun h => write h n (set_label (itoa index))) (fun h => set_ (fun _ => h)) ;;
       read (fun h => write h n (set_up up)) (fun h => set_ (fun _ => h)) ;;
       return_ (fun h => (h, None))) pass) ;;
    return_ (fun h => (h, Some EIndexOutOfRange))) h.

(** parse_utils.go:70-82 [Parse], in an empty heap; [core] is [s]'s second component *)
Definition Parse_go (L : lib) (json : bytes) : flow unit (option qparser * option err) :=
  func (
    set_ (fun s => let '(h, n) := alloc (fst s) (Cell [] [] None []) in (h, Some n)) ;;
    call (fun s => match snd s with Some n => l_core L json (fst s) n | None => Pan end) (fun h => set_ (fun s => (h, snd s))) ;;
    read (fun s => field c_down (fst s) (snd s)) (fun down => if_ (fun _ => zlen down =? 0) (return_ (fun _ => (None, Some (EBadJSON 0)))) pass) ;;
    read (fun s => do ds <- field c_down (fst s) (snd s); zat ds 0) (fun n => set_ (fun s => (fst s, Some n))) ;;
    read (fun s => match snd s with Some n => Ok (QPar (fst s) n json) | None => Panic end) (fun p => return_ (fun _ => (Some p, None)))) ([], None).

(** parse_get.go:15-24 [Get] *)
Definition Get_p (L : lib) (p : qparser) (path : list bytes) : flow unit (bytes * option err) :=
  func (
    if_ (fun _ => zlen path =? 0) (return_ (fun _ => (q_json p, None))) pass ;;
    call (fun _ => walk_go (q_heap p) (q_root p) path) (fun r =>
      let '(curr, e) := r in
      match e with Some e => return_ (fun _ => ([], Some e)) | None => pass end ;;
      read (fun _ => field c_value (q_heap p) curr) (fun v => call (fun _ => l_clean L v) (fun v => return_ (fun _ => (v, None)))))) tt.

(** parse_utils.go:28-36 [packKeyValue], 38-42 [packValue]; the state is [byteOutput] *)
Definition packKeyValue_go (label value : bytes) : flow unit bytes :=
  func (appended [34%N] ;; appended label ;; appended [34%N] ;; appended [58%N] ;; appended value ;; return_ (fun s => s)) [].
Definition packValue_go (value : bytes) : flow unit bytes := func (appended value ;; return_ (fun s => s)) [].

(** parse_utils.go:44-67 [dive], [fuel] levels deep; the state is [temp].  A sum of bytes is a byte. *)
Fixpoint dive_go (fuel : nat) (h : heap) (n : nat) (bytes_ : bytes) : flow unit bytes :=
  match fuel with
  | O => Out
  | S fuel =>
      func (
        read (fun _ => do v <- field c_value h (Some n); zat v 0) (fun c => appended [c]) ;;
        read (fun _ => field c_down h (Some n)) (fun down => range_ down (fun _ d =>
          read (fun _ => field c_value h (Some d)) (fun v =>
          read (fun _ => field c_down h (Some d)) (fun dd =>
          call (fun _ => if negb (zlen dd =? 0) then dive_go fuel h d bytes_ else Ret v) (fun val =>
          let upValue := fun _ : bytes => do u <- field c_up h (Some d); do v <- field c_value h u; zat v 0 in
          read upValue (fun c => if_ (fun _ => (c =? 123)%N)
            (read (fun _ => field c_label h (Some d)) (fun l => call (fun _ => packKeyValue_go l val) appended)) pass) ;;
          read upValue (fun c => if_ (fun _ => (c =? 91)%N) (call (fun _ => packValue_go val) appended) pass) ;;
          appended [44%N]))))) ;;
        if_ (fun temp => zlen temp =? 0) (return_ (fun _ => [])) pass ;;
        read (fun temp => zslice temp 0 (zlen temp - 1)) (fun t => set_ (fun _ => t)) ;;
        read (fun _ => do v <- field c_value h (Some n); zat v 0) (fun c => appended [((c + 2) mod 256)%N]) ;;
        return_ (fun temp => bytes_ ++ temp)) []
  end.

(** parse_get.go:31-46 [GetNew]; the state is [curr] *)
Definition GetNew_p (L : lib) (fuel : nat) (p : qparser) (path : list bytes) : flow unit bytes :=
  func (
    if_ (fun _ => negb (zlen path =? 0))
      (call (fun _ => walk_go (q_heap p) (q_root p) path) (fun r =>
        set_ (fun _ => fst r) ;;
        match snd r with Some _ => return_ (fun _ => []) | None => pass end)) pass ;;
    read (field c_down (q_heap p)) (fun down => if_ (fun _ => zlen down =? 0)
      (read (field c_value (q_heap p)) (fun v => call (fun _ => l_clean L v) (fun v => return_ (fun _ => v)))) pass) ;;
    call (fun curr => match curr with Some n => dive_go fuel (q_heap p) n [] | None => Pan end) (fun temp =>
    call (fun _ => l_clean L temp) (fun v => return_ (fun _ => v)))) (Some (q_root p)).

(** parse_utils.go:149-172 [createTree], [fuel] levels deep; the state is [*str].  [tab += "\t"]: lines 151-154 *)
Definition tab_go (depth : nat) : flow unit bytes :=
  func (var (fun _ => 0) (for_ (S depth) (fun s => Ok (snd s <? Z.of_nat depth - 1)) (fun s => (fst s, snd s + 1)) (set_ (fun s => (fst s ++ [9%N], snd s)))) ;; return_ (fun s => s)) [].
Fixpoint createTree_go (fuel : nat) (h : heap) (n : nat) (depth : nat) (withValues : bool) (str : bytes) : flow unit bytes :=
  match fuel with
  | O => Out
  | S fuel =>
      func (
        read (fun _ => field c_down h (Some n)) (fun down => range_ down (fun _ d =>
          call (fun _ => tab_go depth) (fun tab =>
          read (fun _ => field c_label h (Some d)) (fun l =>
          read (fun _ => field c_value h (Some d)) (fun v =>
          if_ (fun _ => withValues)
            (if_ (fun _ => negb (depth =? 0)%nat)
               (appended ([9%N] ++ (tab ++ corner ++ b " ") ++ b " " ++ pad_right 6 l ++ b " : " ++ v ++ [10%N]))
               (appended (tab ++ dash ++ b " " ++ pad_right 6 l ++ b " : " ++ v ++ [10%N])))
            (if_ (fun _ => negb (depth =? 0)%nat)
               (appended ([9%N] ++ (tab ++ corner ++ b " ") ++ b " " ++ l ++ [10%N]))
               (appended (tab ++ dash ++ b " " ++ l ++ [10%N]))) ;;
          read (fun _ => field c_down h (Some d)) (fun dd =>
          if_ (fun _ => zlen dd >? 0) (call (fun str => createTree_go fuel h d (S depth) withValues str) (fun str => set_ (fun _ => str))) pass)))))) ;;
        return_ (fun str => str)) str
  end.
(** parse_utils.go:136-140 [Tree], 143-147 [TreeFull] *)
Definition Tree_p (fuel : nat) (p : qparser) : flow unit bytes := createTree_go fuel (q_heap p) (q_root p) 0 false [].
Definition TreeFull_p (fuel : nat) (p : qparser) : flow unit bytes := createTree_go fuel (q_heap p) (q_root p) 0 true [].

(** ** Updates

    The nodes, [p.json], the variables [curr] and [newNode] ([newCore]) *)
Record pg : Type := Pg { g_heap : heap; g_json : bytes; g_curr : option nat; g_new : option nat }.
Definition g_to_heap x s := Pg x (g_json s) (g_curr s) (g_new s).
Definition g_to_json x s := Pg (g_heap s) x (g_curr s) (g_new s).
Definition g_to_curr x s := Pg (g_heap s) (g_json s) x (g_new s).
Definition g_to_new x s := Pg (g_heap s) (g_json s) (g_curr s) x.
(** An error, and the parser when it is returned *)
Definition told : Type := qparser * option err.

Section Updates.
  Variables (L : lib) (p : qparser).
  Definition root : nat := q_root p.
  Definition return_err (e : option err) : cmd pg told := return_ (fun s => (QPar (g_heap s) root (g_json s), e)).
  (** [if err != nil { return err }] *)
  Definition check (e : option err) : cmd pg told := match e with Some e => return_err (Some e) | None => pass end.
  (** An assignment to a field of a node *)
  Definition assign (e : pg -> res heap) : cmd pg told := read e (fun h => set_ (g_to_heap h)).
  Definition method (body : cmd pg told) : flow unit told := func body (Pg (q_heap p) (q_json p) None None).

  (** [curr, err = p.core.walk(path); if err != nil { return err }] *)
  Definition walked (path : list bytes) : cmd pg told :=
    call (fun s => walk_go (g_heap s) root path) (fun r => set_ (g_to_curr (fst r)) ;; check (snd r)).
  (** [p.json, err = f(p.json, ...)], looked at or not *)
  Definition texted (f : bytes -> flow unit (bytes * option err)) : cmd pg told := call (fun s => f (g_json s)) (fun r => set_ (g_to_json (fst r)) ;; check (snd r)).
  Definition texted_ (f : bytes -> flow unit (bytes * option err)) : cmd pg told := call (fun s => f (g_json s)) (fun r => set_ (g_to_json (fst r))).
  (** [newNode := createNode(nil)], parse_utils.go:23-26 *)
  Definition created : cmd pg told := set_ (fun s => let '(h, n) := alloc (g_heap s) (Cell [] [] None []) in g_to_new (Some n) (g_to_heap h s)).
  (** [pCore(newVal, newNode)] *)
  Definition parsed (newVal : bytes) : cmd pg told :=
    call (fun s => match g_new s with Some n => l_core L newVal (g_heap s) n | None => Pan end) (fun h => set_ (g_to_heap h)).
  (** [for i := 0; i < n; i++ { x = x.up; x.value, err = Get(p.json, path[:m-i]...); if err != nil { return err } }] for [curr] or [newNode];
      [seen]: the error is assigned to [err] *)
  Definition refreshed (seen : bool) (x : pg -> option nat) (to_x : option nat -> pg -> pg) (n m : Z) (path : list bytes) : cmd pg told :=
    var (fun _ => 0) (for_ (S (length path)) (fun s => Ok (snd s <? n)) (fun s => (fst s, snd s + 1)) (
      read (fun s => field c_up (g_heap (fst s)) (x (fst s))) (fun u => set_ (fun s => (to_x u (fst s), snd s))) ;;
      read (fun s => zslice path 0 (m - snd s)) (fun q => call (fun s => l_get L (g_json (fst s)) q) (fun r =>
      read (fun s => write (g_heap (fst s)) (x (fst s)) (set_value (fst r))) (fun h => set_ (fun s => (g_to_heap h (fst s), snd s))) ;;
      if seen then match snd r with Some e => return_ (fun s => (QPar (g_heap (fst s)) root (g_json (fst s)), Some e)) | None => pass end else pass)))).
  (** [newVal[0] == 91 || newVal[0] == 123] *)
  Definition is_nested (newVal : bytes) : res bool := do c <- zat newVal 0; Ok ((c =? 91) || (c =? 123))%N.
  (** [json[0] == o && json[len(json)-1] == c] *)
  Definition encloses (o c : N) (json : bytes) : res bool :=
    do x <- zat json 0; if (x =? o)%N then do y <- zat json (zlen json - 1); Ok (y =? c)%N else Ok false.

  (** parse_set.go:9-51 [Set] *)
  Definition Set_p (newVal : bytes) (path : list bytes) : flow unit told :=
    let lenp := zlen path in
    let lenv := zlen newVal in
    method (
      if_ (fun _ => lenp =? 0) (return_err (Some ENullPath)) pass ;;
      walked path ;;
      if_ (fun _ => lenv >=? 2)
        (read (fun _ => is_nested newVal) (fun nested =>
         if_ (fun _ => nested)
           (created ;;
            parsed newVal ;;
            assign (fun s => do l <- field c_label (g_heap s) (g_curr s); write (g_heap s) (g_new s) (set_label l)) ;;
            assign (fun s => do u <- field c_up (g_heap s) (g_curr s); write (g_heap s) (g_new s) (set_up u)) ;;
            call (fun s => getIndex_go (g_heap s) (g_curr s)) (fun index =>
            assign (fun s => do u <- field c_up (g_heap s) (g_curr s); do ds <- field c_down (g_heap s) u; do _ <- zat ds index;
              match g_new s with
              | Some newCore => write (g_heap s) u (fun c => set_down (set_nth (c_down c) (Z.to_nat index) newCore) c)
              | None => Panic
              end)) ;;
            assign (fun s => write (g_heap s) (g_new s) (set_value newVal)) ;;
            texted_ (fun json => l_set L json newVal path) ;;
            refreshed true g_new g_to_new (lenp - 1) (lenp - 1) path ;;
            return_err None) pass)) pass ;;
      assign (fun s => write (g_heap s) (g_curr s) (set_value newVal)) ;;
      texted_ (fun json => l_set L json newVal path) ;;
      refreshed true g_curr g_to_curr (lenp - 1) (lenp - 1) path ;;
      return_err None).

  (** [for _, d := range n.down { if d.label == key { return errKeyAlreadyExist(key) } }] *)
  Definition refuse (ds : pg -> res (list nat)) (key : bytes) : cmd pg told :=
    read ds (fun down => range_ down (fun _ d =>
      read (fun s => field c_label (g_heap s) (Some d)) (fun l =>
      if_ (fun _ => bytes_eqb l key) (return_err (Some (EKeyAlreadyExist key))) pass))).
  Definition up_down (s : pg) : res (list nat) := do u <- field c_up (g_heap s) (g_curr s); field c_down (g_heap s) u.

  (** parse_set.go:87-117 [SetKey]; [err] is nil in the loop *)
  Definition SetKey_p (newKey : bytes) (path : list bytes) : flow unit told :=
    let lenp := zlen path in
    let lenv := zlen newKey in
    method (
      if_ (fun _ => lenp =? 0) (return_err (Some ENullPath)) pass ;;
      if_ (fun _ => lenv =? 0) (return_err (Some ENullKey)) pass ;;
      walked path ;;
      refuse up_down newKey ;;
      assign (fun s => write (g_heap s) (g_curr s) (set_label newKey)) ;;
      texted_ (fun json => l_setKey L json newKey path) ;;
      refreshed false g_curr g_to_curr (lenp - 1) (lenp - 1) path ;;
      return_err None).

  (** parse_delete.go:6-30 [Delete] *)
  Definition Delete_p (path : list bytes) : flow unit told :=
    let lenp := zlen path in
    method (
      if_ (fun _ => lenp =? 0) (return_err (Some ENullPath)) pass ;;
      walked path ;;
      call (fun s => deAttach_go (g_heap s) (g_curr s)) (fun h => set_ (g_to_heap h)) ;;
      texted (fun json => l_delete L json path) ;;
      refreshed true g_curr g_to_curr (lenp - 1) (lenp - 1) path ;;
      return_err None).

  (** [json, err := p.Get(path...); if err != nil { return err }; c] *)
  Definition gotten_p (path : list bytes) (c : bytes -> cmd pg told) : cmd pg told :=
    call (fun s => Get_p L (QPar (g_heap s) root (g_json s)) path) (fun r => check (snd r) ;; c (fst r)).
  Definition to_label (l : bytes) : cmd pg told := assign (fun s => write (g_heap s) (g_new s) (set_label l)).
  Definition to_value (v : bytes) : cmd pg told := assign (fun s => write (g_heap s) (g_new s) (set_value v)).
  (** [curr.down = append(curr.down, newNode)]; [newNode.up = curr] *)
  Definition to_down : cmd pg told := assign (fun s => match g_new s with Some n => push_down (g_heap s) (g_curr s) n | None => Panic end).
  Definition to_up : cmd pg told := assign (fun s => write (g_heap s) (g_new s) (set_up (g_curr s))).
  (** [p.json = replace(p.json, t, len(p.json)-1, len(p.json)-1)], utils.go:8-14 *)
  Definition before_end (t : bytes) : cmd pg told :=
    call (fun s => l_replace L (g_json s) t (zlen (g_json s) - 1) (zlen (g_json s) - 1)) (fun j => set_ (g_to_json j)).

  (** parse_add.go:10-114 [AddKeyValue] *)
  Definition AddKeyValue_p (key newVal : bytes) (path : list bytes) : flow unit told :=
    let lenp := zlen path in
    let lenv := zlen key in
    method (
      if_ (fun _ => lenv =? 0) (return_err (Some ENullKey)) pass ;;
      gotten_p path (fun json =>
      set_ (g_to_curr (Some root)) ;;
      if_ (fun _ => lenp =? 0)
        (refuse (fun s => field c_down (g_heap s) (g_curr s)) key ;;
         if_ (fun _ => zlen json >=? 2)
           (read (fun _ => encloses 123 125 json) (fun yes => if_ (fun _ => yes)
              (let newKV := b "," ++ b """" ++ key ++ b """:" ++ newVal in
               if_ (fun _ => lenv >=? 2)
                 (read (fun _ => is_nested newVal) (fun nested => if_ (fun _ => nested)
                    (created ;; parsed newVal ;; to_label key ;; to_value newVal ;;
                     if_ (fun s => zlen (g_json s) =? 2) (before_end (tl newKV)) (before_end newKV) ;;
                     to_down ;; to_up ;; return_err None) pass)) pass ;;
               before_end newKV ;;
               created ;; to_label key ;; to_value newVal ;; to_down ;; to_up ;; return_err None) pass) ;;
            return_err (Some EObjectExpected)) pass ;;
         return_err (Some (EBadJSON 0))) pass ;;
      walked path ;;
      refuse up_down key ;;
      if_ (fun _ => zlen json >=? 2)
        (read (fun _ => encloses 123 125 json) (fun yes => if_ (fun _ => yes)
           (if_ (fun _ => lenv >=? 2)
              (read (fun _ => is_nested newVal) (fun nested => if_ (fun _ => nested)
                 (created ;; parsed newVal ;; to_label key ;; to_value newVal ;; to_down ;; to_up ;;
                  texted (fun json => l_addKeyValue L json key newVal path) ;;
                  refreshed true g_new g_to_new lenp lenp path ;;
                  return_err None) pass)) pass ;;
            created ;; to_label key ;; to_value newVal ;; to_down ;; to_up ;;
            texted (fun json => l_addKeyValue L json key newVal path) ;;
            refreshed true g_new g_to_new lenp lenp path ;;
            return_err None) pass) ;;
         return_err (Some EObjectExpected)) pass ;;
      return_err (Some (EBadJSON 0)))).

  (** [index := len(curr.down); newNode.label = strconv.Itoa(index)] *)
  Definition to_next : cmd pg told := read (fun s => field c_down (g_heap s) (g_curr s)) (fun down => to_label (itoa (zlen down))).
  (** parse_add.go:119-220 [Add] *)
  Definition Add_p (newVal : bytes) (path : list bytes) : flow unit told :=
    let lenp := zlen path in
    let lenv := zlen newVal in
    method (
      if_ (fun _ => lenv =? 0) (return_err (Some ENullKey)) pass ;;
      gotten_p path (fun json =>
      if_ (fun _ => lenp =? 0)
        (set_ (g_to_curr (Some root)) ;;
         if_ (fun _ => zlen json >=? 2)
           (read (fun _ => encloses 91 93 json) (fun yes => if_ (fun _ => yes)
              (let newValue := b "," ++ newVal in
               if_ (fun _ => lenv >=? 2)
                 (read (fun _ => is_nested newVal) (fun nested => if_ (fun _ => nested)
                    (created ;; parsed newVal ;; to_next ;; to_value newVal ;;
                     if_ (fun s => zlen (g_json s) =? 2) (before_end (tl newValue)) (before_end newValue) ;;
                     to_down ;; to_up ;; return_err None) pass)) pass ;;
               before_end newValue ;;
               created ;; to_next ;; to_value newVal ;; to_down ;; to_up ;; return_err None) pass) ;;
            return_err (Some EArrayExpected)) pass ;;
         return_err (Some (EBadJSON 0))) pass ;;
      walked path ;;
      if_ (fun _ => zlen json >=? 2)
        (read (fun _ => encloses 91 93 json) (fun yes => if_ (fun _ => yes)
           (if_ (fun _ => lenv >=? 2)
              (read (fun _ => is_nested newVal) (fun nested => if_ (fun _ => nested)
                 (created ;; parsed newVal ;; to_next ;; to_value newVal ;; to_down ;; to_up ;;
                  texted (fun json => l_add L json newVal path) ;;
                  refreshed true g_new g_to_new (lenp - 1) lenp path ;;
                  return_err None) pass)) pass ;;
            created ;; to_next ;; to_value newVal ;; to_down ;; to_up ;;
            texted (fun json => l_add L json newVal path) ;;
            refreshed true g_new g_to_new lenp lenp path ;;
            return_err None) pass) ;;
         return_err (Some EArrayExpected)) pass ;;
      return_err (Some (EBadJSON 0)))).

  (** [err = newNode.insert(curr, newIndex); if err != nil { return err }] *)
  Definition inserted (newIndex : Z) : cmd pg told :=
    call (fun s => insert_go (g_heap s) (g_new s) (g_curr s) newIndex) (fun r => set_ (g_to_heap (fst r)) ;; check (snd r)).
  (** parse_add.go:225-339 [Insert] *)
  Definition Insert_p (newIndex : Z) (newVal : bytes) (path : list bytes) : flow unit told :=
    let lenp := zlen path in
    let lenv := zlen newVal in
    method (
      if_ (fun _ => lenv =? 0) (return_err (Some ENullKey)) pass ;;
      gotten_p path (fun json =>
      set_ (g_to_curr (Some root)) ;;
      if_ (fun _ => lenp =? 0)
        (if_ (fun _ => zlen json >=? 2)
           (read (fun _ => encloses 91 93 json) (fun yes => if_ (fun _ => yes)
              (if_ (fun _ => lenv >=? 2)
                 (read (fun _ => is_nested newVal) (fun nested => if_ (fun _ => nested)
                    (created ;; parsed newVal ;; inserted newIndex ;;
                     texted (fun json => l_insert L json newIndex newVal path) ;;
                     inserted newIndex ;;
                     to_down ;; to_up ;; return_err None) pass)) pass ;;
               created ;; inserted newIndex ;; to_value newVal ;; to_down ;;
               texted (fun json => l_insert L json newIndex newVal path) ;;
               inserted newIndex ;;
               to_up ;; return_err None) pass) ;;
            return_err (Some EArrayExpected)) pass ;;
         return_err (Some (EBadJSON 0))) pass ;;
      walked path ;;
      if_ (fun _ => zlen json >=? 2)
        (read (fun _ => encloses 91 93 json) (fun yes => if_ (fun _ => yes)
           (if_ (fun _ => lenv >=? 2)
              (read (fun _ => is_nested newVal) (fun nested => if_ (fun _ => nested)
                 (created ;; parsed newVal ;; inserted newIndex ;; to_value newVal ;; to_down ;; to_up ;;
                  texted (fun json => l_insert L json newIndex newVal path) ;;
                  refreshed true g_new g_to_new lenp lenp path ;;
                  return_err None) pass)) pass ;;
            created ;; inserted newIndex ;; to_value newVal ;; to_down ;; to_up ;;
            texted (fun json => l_insert L json newIndex newVal path) ;;
            refreshed true g_new g_to_new lenp lenp path ;;
            return_err None) pass) ;;
         return_err (Some EArrayExpected)) pass ;;
      return_err (Some (EBadJSON 0)))).
End Updates.

(** *** A history of calls: the Parser at the end and the errors returned *)
Definition do_p (L : lib) (c : pcall) (p : qparser) : flow unit told :=
  match c with
  | CSet v path => Set_p L p v path
  | CSetKey k path => SetKey_p L p k path
  | CDelete path => Delete_p L p path
  | CAddKeyValue k v path => AddKeyValue_p L p k v path
  | CAdd v path => Add_p L p v path
  | CInsert i v path => Insert_p L p i v path
  end.
Fixpoint calls_p (L : lib) (cs : list pcall) (p : qparser) : flow unit (qparser * list (option err)) :=
  match cs with
  | [] => Ret (p, [])
  | c :: r => match do_p L c p with
              | Ret (p, e) => match calls_p L r p with Ret (p', es) => Ret (p', e :: es) | Out => Out | _ => Pan end
              | Out => Out
              | _ => Pan
              end
  end.
