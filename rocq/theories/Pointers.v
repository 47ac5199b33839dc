(** The parser again, closer to the code: sequence.go with its growing arrays, and nodes linked by pointers in a heap.  Parser.v has the
    same functions on trees; PointerProofs.v shows that they agree. *)
From Verif Require Import GoStd Core Errors Api Iter Typed Parser SpecPtr.

Local Open Scope N_scope.

(** ** sequence.go *)

(** sequence.go:3-7 [sequance] *)
Record sequance : Type := Seq { sq_list : list Z; sq_index : Z; sq_length : Z }.

(** [l[i]] and [l[i] = x] for an [int] i *)
Definition at_int (l : list Z) (i : Z) : res Z :=
  if (i <? 0)%Z then Panic else match nth_error l (Z.to_nat i) with Some x => Ok x | None => Panic end.
Fixpoint set_nth {A : Type} (l : list A) (i : nat) (x : A) : list A :=
  match l, i with
  | [], _ => []
  | _ :: r, O => x :: r
  | y :: r, S j => y :: set_nth r j x
  end.
Definition put_int (l : list Z) (i : Z) (x : Z) : res (list Z) :=
  if (i <? 0)%Z || (Z.of_nat (length l) <=? i)%Z then Panic else Ok (set_nth l (Z.to_nat i) x).

(** [copy(dst, src)] *)
Definition copy_into (dst src : list Z) : list Z := firstn (length dst) src ++ skipn (length src) dst.

(** sequence.go:9-12 [makeSeq] *)
Definition makeSeq (n : nat) : sequance := Seq (repeat 0%Z n) 0 (Z.of_nat n).

(** sequence.go:14-23 [push] *)
Definition sq_push (s : sequance) (element : Z) : res sequance :=
  let s := if (sq_index s >? sq_length s - 1)%Z
           then Seq (copy_into (repeat 0%Z (Z.to_nat (sq_length s + 4))) (sq_list s)) (sq_index s) (sq_length s + 4)
           else s in
  do l <- put_int (sq_list s) (sq_index s) element;
  Ok (Seq l (sq_index s + 1) (sq_length s)).

(** sequence.go:25-31 [pop] *)
Definition sq_pop (s : sequance) : res (Z * sequance) :=
  if (sq_index s >? -1)%Z then
    do x <- at_int (sq_list s) (sq_index s - 1);
    Ok (x, Seq (sq_list s) (sq_index s - 1) (sq_length s))
  else Ok (0%Z, s).

(** sequence.go:33-35 [last], sequence.go:37-39 [inc] *)
Definition sq_last (s : sequance) : res Z := at_int (sq_list s) (sq_index s - 1).
Definition sq_inc (s : sequance) : res sequance :=
  do x <- at_int (sq_list s) (sq_index s - 1);
  do l <- put_int (sq_list s) (sq_index s - 1) (x + 1);
  Ok (Seq l (sq_index s) (sq_length s)).

(** A history of calls, and the numbers returned *)
Definition sq_step (s : sequance) (o : seq_op) : res (sequance * list Z) :=
  match o with
  | Push z => do s <- sq_push s z; Ok (s, [])
  | Pop => do '(x, s) <- sq_pop s; Ok (s, [x])
  | Last => do x <- sq_last s; Ok (s, [x])
  | Inc => do s <- sq_inc s; Ok (s, [])
  end.
Fixpoint sq_run (s : sequance) (ops : list seq_op) : res (list Z) :=
  match ops with
  | [] => Ok []
  | o :: r => do '(s, out) <- sq_step s o; do rest <- sq_run s r; Ok (out ++ rest)
  end.

(** ** Nodes *)

(** Reading and writing through a pointer; nil panics *)
Definition deref (h : heap) (p : option nat) : res (nat * cell) :=
  match p with
  | None => Panic
  | Some a => match nth_error h a with Some c => Ok (a, c) | None => Panic end
  end.
Definition set_label (l : bytes) (c : cell) : cell := Cell l (c_value c) (c_up c) (c_down c).
Definition set_value (v : bytes) (c : cell) : cell := Cell (c_label c) v (c_up c) (c_down c).
Definition set_up (u : option nat) (c : cell) : cell := Cell (c_label c) (c_value c) u (c_down c).
Definition set_down (ds : list nat) (c : cell) : cell := Cell (c_label c) (c_value c) (c_up c) ds.
Definition write (h : heap) (p : option nat) (f : cell -> cell) : res heap :=
  do '(a, c) <- deref h p; Ok (set_nth h a (f c)).
(** [newNode := &node{...}] *)
Definition alloc (h : heap) (c : cell) : heap * nat := (h ++ [c], length h).
(** parse_utils.go:23-26 [createNode] *)
Definition createNode (h : heap) (up : option nat) : heap * nat := alloc h (Cell [] [] up []).
(** [core.down = append(core.down, newNode)] *)
Definition push_down (h : heap) (p : option nat) (d : nat) : res heap := write h p (fun c => set_down (c_down c ++ [d]) c).

(** [newNode := &node{up: core, label: l, value: v}; core.down = append(core.down, newNode)] *)
Definition hang (h : heap) (core : option nat) (l v : bytes) : res (heap * nat) :=
  let '(h, d) := alloc h (Cell l v core []) in
  do h <- push_down h core d; Ok (h, d).

(** [json[s:e]] for an [int] s *)
Definition slice_int (json : bytes) (s : Z) (e : nat) : res bytes := if (s <? 0)%Z then Panic else slice json (Z.to_nat s) e.

(** parse_core.go:30-116, the loop of pCore; the heap at its end *)
Fixpoint q_loop (json rest : bytes) (i : nat) (inq : bool) (start stop : nat) (key : bytes) (vs : nat) (last : N)
         (braces idx : sequance) (h : heap) (core : option nat) : res heap :=
  match rest with
  | [] => Ok h
  | c :: r =>
      if c =? 34 then
        if inq then
          match qscan json i with
          | Some true => q_loop json r (S i) false start i key vs last braces idx h core
          | Some false => q_loop json r (S i) true start stop key vs last braces idx h core
          | None => q_loop json r (S i) true (S i) stop key vs last braces idx h core
          end
        else q_loop json r (S i) true (S i) stop key vs last braces idx h core
      else if inq then q_loop json r (S i) inq start stop key vs last braces idx h core
      else if is_open c then
        (* parse_core.go:65-80 *)
        do lbl <- (if last =? 58 then Ok key else do n <- sq_last idx; Ok (itoa n));
        do '(h, new) <- hang h core lbl [];
        do idx <- sq_push idx 0;
        do braces <- sq_push braces (Z.of_nat i);
        q_loop json r (S i) inq start stop key (S i) c braces idx h (Some new)
      else if is_close c then
        (* parse_core.go:81-95 *)
        do '(h, vs) <-
          (if last =? 58 then
             do v <- slice json vs i; do '(h, _) <- hang h core key v; Ok (h, vs)
           else if last =? 44 then
             do n <- sq_last idx; do v <- slice json vs i; do '(h, _) <- hang h core (itoa n) v; Ok (h, S i)
           else Ok (h, vs));
        do '(bp, braces) <- sq_pop braces;
        do v <- slice_int json bp (S i);
        do h <- write h core (set_value v);
        do '(_, idx) <- sq_pop idx;
        do '(_, cc) <- deref h core;
        q_loop json r (S i) inq start stop key vs c braces idx h (c_up cc)
      else if c =? 58 then
        do key <- slice json start stop;
        q_loop json r (S i) inq start stop key (S i) 58 braces idx h core
      else if c =? 44 then
        (* parse_core.go:101-113 *)
        do h <-
          (if last =? 58 then do v <- slice json vs i; do '(h, _) <- hang h core key v; Ok h
           else if (last =? 44) || (last =? 91) then
             do n <- sq_last idx; do v <- slice json vs i; do '(h, _) <- hang h core (itoa n) v; Ok h
           else Ok h);
        do idx <- sq_inc idx;
        q_loop json r (S i) inq start stop key (S i) 44 braces idx h core
      else q_loop json r (S i) inq start stop key vs last braces idx h core
  end.

(** parse_core.go:5-118 [pCore] on the node at [core] *)
Definition q_core (json : bytes) (h : heap) (core : nat) : res heap :=
  if (length json <? 2)%nat then Ok h
  else
    do idx <- sq_push (makeSeq 4) 0;
    do start <- skip_space json 0;
    q_loop json (skipn start json) start false start 0 [] 0 0 (makeSeq 4) idx h (Some core).

(** The parser: its nodes, [core] and [json] (parse_utils.go:18-21) *)
Record qparser : Type := QPar { q_heap : heap; q_root : nat; q_json : bytes }.

(** parse_utils.go:70-82 [Parse], in an empty heap *)
Definition Q_Parse (json : bytes) : res qparser :=
  let '(h, core) := createNode [] None in
  do h <- q_core json h core;
  do '(_, c) <- deref h (Some core);
  match c_down c with [] => Err (EBadJSON 0) | d :: _ => Ok (QPar h d json) end.

(** The child with label [x] (parse_utils.go:112-117) *)
Fixpoint q_find (h : heap) (x : bytes) (ds : list nat) : res (option nat) :=
  match ds with
  | [] => Ok None
  | d :: r => do '(_, c) <- deref h (Some d); if bytes_eqb (c_label c) x then Ok (Some d) else q_find h x r
  end.

(** parse_utils.go:110-123 [walk] *)
Fixpoint q_walk (h : heap) (a : nat) (path : list bytes) : res nat :=
  match path with
  | [] => Ok a
  | x :: p =>
      do '(_, c) <- deref h (Some a);
      do o <- q_find h x (c_down c);
      match o with Some d => q_walk h d p | None => Err (EKeyNotFound x) end
  end.

(** parse_get.go:15-24 [Parser.Get] *)
Definition Q_Get (p : qparser) (path : list bytes) : res bytes :=
  match path with
  | [] => Ok (q_json p)
  | _ => do a <- q_walk (q_heap p) (q_root p) path; do '(_, c) <- deref (q_heap p) (Some a); cleanValue (c_value c)
  end.

(** ** Updates: the parser afterwards and the returned error, or a panic *)
Inductive qres : Type := QRet (p : qparser) (e : option err) | QPanic.
Definition q_bind {A : Type} (p : qparser) (r : res A) (k : A -> qres) : qres :=
  match r with Ok a => k a | Err e => QRet p (Some e) | Panic => QPanic end.
Definition q_pure {A : Type} (r : res A) (k : A -> qres) : qres :=
  match r with Ok a => k a | _ => QPanic end.
Definition q_take (p : qparser) (r : upd) (k : qparser -> qres) : qres :=
  match r with
  | Done out => k (QPar (q_heap p) (q_root p) out)
  | Fail out _ => k (QPar (q_heap p) (q_root p) (odef out))
  | UPanic => QPanic
  end.
Definition q_take_or_fail (p : qparser) (r : upd) (k : qparser -> qres) : qres :=
  match r with
  | Done out => k (QPar (q_heap p) (q_root p) out)
  | Fail out e => QRet (QPar (q_heap p) (q_root p) (odef out)) (Some e)
  | UPanic => QPanic
  end.
Definition with_heap (p : qparser) (h : heap) : qparser := QPar h (q_root p) (q_json p).

(** [for i := 0; i < n; i++ { curr = curr.up; curr.value, err = Get(p.json, path[:m-i]...); if err != nil { return err } }], e.g.
    parse_set.go:43-49; [quiet]: the error is not looked at (parse_set.go:109-115) *)
Fixpoint q_refresh (quiet : bool) (n : nat) (m : nat) (path : list bytes) (curr : nat) (p : qparser) : qres :=
  match n with
  | O => QRet p None
  | S n =>
      q_pure (deref (q_heap p) (Some curr)) (fun '(_, c) =>
      q_pure (deref (q_heap p) (c_up c)) (fun '(up, _) =>
      let put v := q_pure (write (q_heap p) (Some up) (set_value v)) in
      match Get (q_json p) (firstn m path) with
      | Ok v => put v (fun h => q_refresh quiet n (pred m) path up (with_heap p h))
      | Err e => put [] (fun h => if quiet then q_refresh quiet n (pred m) path up (with_heap p h) else QRet (with_heap p h) (Some e))
      | Panic => QPanic
      end))
  end.

(** parse_utils.go:125-132 [getIndex]; the loop over [n.up.down] *)
Fixpoint q_index (h : heap) (x : bytes) (ds : list nat) : res (option nat) :=
  match ds with
  | [] => Ok None
  | d :: r => do '(_, c) <- deref h (Some d); if bytes_eqb (c_label c) x then Ok (Some 0%nat) else do o <- q_index h x r; Ok (option_map S o)
  end.

(** parse_set.go:9-51 [Parser.Set] *)
Definition Q_Set (p : qparser) (newVal : bytes) (path : list bytes) : qres :=
  let lenp := length path in
  match path with
  | [] => QRet p (Some ENullPath)
  | _ =>
      q_bind p (q_walk (q_heap p) (q_root p) path) (fun curr =>
      if (2 <=? length newVal)%nat && opens newVal then
        let '(h, newCore) := createNode (q_heap p) None in
        q_pure (q_core newVal h newCore) (fun h =>
        q_pure (deref h (Some curr)) (fun '(_, cc) =>
        q_pure (write h (Some newCore) (set_label (c_label cc))) (fun h =>
        q_pure (write h (Some newCore) (set_up (c_up cc))) (fun h =>
        q_pure (deref h (c_up cc)) (fun '(_, cu) =>
        q_pure (q_index h (c_label cc) (c_down cu)) (fun o =>
        match o with
        | None => QPanic
        | Some index =>
            q_pure (write h (c_up cc) (fun c => set_down (set_nth (c_down c) index newCore) c)) (fun h =>
            q_pure (write h (Some newCore) (set_value newVal)) (fun h =>
            q_take (with_heap p h) (Set_ (q_json p) newVal path) (q_refresh false (lenp - 1) (lenp - 1) path newCore)))
        end))))))
      else
        q_pure (write (q_heap p) (Some curr) (set_value newVal)) (fun h =>
        q_take (with_heap p h) (Set_ (q_json p) newVal path) (q_refresh false (lenp - 1) (lenp - 1) path curr)))
  end.

(** parse_set.go:87-117 [Parser.SetKey] *)
Definition Q_SetKey (p : qparser) (newKey : bytes) (path : list bytes) : qres :=
  let lenp := length path in
  match path with
  | [] => QRet p (Some ENullPath)
  | _ =>
      match newKey with
      | [] => QRet p (Some ENullKey)
      | _ =>
          q_bind p (q_walk (q_heap p) (q_root p) path) (fun curr =>
          q_pure (deref (q_heap p) (Some curr)) (fun '(_, cc) =>
          q_pure (deref (q_heap p) (c_up cc)) (fun '(_, cu) =>
          q_pure (q_find (q_heap p) newKey (c_down cu)) (fun o =>
          match o with
          | Some _ => QRet p (Some (EKeyAlreadyExist newKey))
          | None =>
              q_pure (write (q_heap p) (Some curr) (set_label newKey)) (fun h =>
              q_take (with_heap p h) (SetKey (q_json p) newKey path) (q_refresh true (lenp - 1) (lenp - 1) path curr))
          end))))
      end
  end.

(** parse_utils.go:100-108 [deAttach]: the pointers in [n.up.down] to nodes with another label *)
Fixpoint q_others (h : heap) (x : bytes) (ds : list nat) : res (list nat) :=
  match ds with
  | [] => Ok []
  | d :: r => do '(_, c) <- deref h (Some d); do s <- q_others h x r; Ok (if bytes_eqb (c_label c) x then s else d :: s)
  end.
(** [make] panics on the capacity -1 *)
Definition q_deAttach (h : heap) (n : nat) : res heap :=
  do '(_, c) <- deref h (Some n);
  do '(_, cu) <- deref h (c_up c);
  match c_down cu with
  | [] => Panic
  | ds => do newDown <- q_others h (c_label c) ds; write h (c_up c) (set_down newDown)
  end.

(** parse_delete.go:6-30 [Parser.Delete] *)
Definition Q_Delete (p : qparser) (path : list bytes) : qres :=
  let lenp := length path in
  match path with
  | [] => QRet p (Some ENullPath)
  | _ =>
      q_bind p (q_walk (q_heap p) (q_root p) path) (fun curr =>
      q_pure (q_deAttach (q_heap p) curr) (fun h =>
      q_take_or_fail (with_heap p h) (Delete (q_json p) path) (q_refresh false (lenp - 1) (lenp - 1) path curr)))
  end.

(** [newNode := createNode(nil)], with [pCore(newVal, newNode)] if [nested] *)
Definition new_node (h : heap) (nested : bool) (newVal : bytes) : res (heap * nat) :=
  let '(h, n) := createNode h None in
  if nested then do h <- q_core newVal h n; Ok (h, n) else Ok (h, n).

(** [newNode.label = l; newNode.value = v; curr.down = append(curr.down, newNode); newNode.up = curr] *)
Definition attach (h : heap) (curr n : nat) (l v : bytes) : res heap :=
  do h <- write h (Some n) (set_label l);
  do h <- write h (Some n) (set_value v);
  do h <- push_down h (Some curr) n;
  write h (Some n) (set_up (Some curr)).

(** [p.json = replace(p.json, t, len(p.json)-1, len(p.json)-1)] *)
Definition q_before_end (p : qparser) (t : bytes) (k : qparser -> qres) : qres :=
  q_pure (replace (q_json p) t (pred (length (q_json p))) (pred (length (q_json p)))) (fun j => k (QPar (q_heap p) (q_root p) j)).

(** parse_add.go:10-114 [Parser.AddKeyValue] *)
Definition Q_AddKeyValue (p : qparser) (key newVal : bytes) (path : list bytes) : qres :=
  let lenp := length path in
  match key with
  | [] => QRet p (Some ENullKey)
  | _ =>
      q_bind p (Q_Get p path) (fun json =>
      let nested (k : bool -> qres) := if (2 <=? length key)%nat then q_pure (at_ newVal 0) (fun c => k (is_open c)) else k false in
      match path with
      | [] =>
          q_pure (deref (q_heap p) (Some (q_root p))) (fun '(curr, cc) =>
          q_pure (q_find (q_heap p) key (c_down cc)) (fun o =>
          match o with
          | Some _ => QRet p (Some (EKeyAlreadyExist key))
          | None =>
              if (2 <=? length json)%nat then
                if (hd 0 json =? 123) && (last json 0 =? 125) then
                  nested (fun ne =>
                  q_pure (new_node (q_heap p) ne newVal) (fun '(h, n) =>
                  q_before_end (with_heap p h) ((if ne && (length (q_json p) =? 2)%nat then [] else [44]) ++ pair_text key newVal) (fun p =>
                  q_pure (attach (q_heap p) curr n key newVal) (fun h => QRet (with_heap p h) None))))
                else QRet p (Some EObjectExpected)
              else QRet p (Some (EBadJSON 0))
          end))
      | _ =>
          q_bind p (q_walk (q_heap p) (q_root p) path) (fun curr =>
          q_pure (deref (q_heap p) (Some curr)) (fun '(_, cc) =>
          q_pure (deref (q_heap p) (c_up cc)) (fun '(_, cu) =>
          q_pure (q_find (q_heap p) key (c_down cu)) (fun o =>
          match o with
          | Some _ => QRet p (Some (EKeyAlreadyExist key))
          | None =>
              if (2 <=? length json)%nat then
                if (hd 0 json =? 123) && (last json 0 =? 125) then
                  nested (fun ne =>
                  q_pure (new_node (q_heap p) ne newVal) (fun '(h, n) =>
                  q_pure (attach h curr n key newVal) (fun h =>
                  q_take_or_fail (with_heap p h) (AddKeyValue (q_json p) key (Some newVal) path) (q_refresh false lenp lenp path n))))
                else QRet p (Some EObjectExpected)
              else QRet p (Some (EBadJSON 0))
          end))))
      end)
  end.

(** parse_add.go:119-220 [Parser.Add]; line 188 counts to lenp-1 *)
Definition Q_Add (p : qparser) (newVal : bytes) (path : list bytes) : qres :=
  let lenp := length path in
  match newVal with
  | [] => QRet p (Some ENullKey)
  | _ =>
      q_bind p (Q_Get p path) (fun json =>
      let ne := (2 <=? length newVal)%nat && opens newVal in
      let label_of (h : heap) (curr : nat) : res bytes := do '(_, cc) <- deref h (Some curr); Ok (itoa (Z.of_nat (length (c_down cc)))) in
      match path with
      | [] =>
          let curr := q_root p in
          if (2 <=? length json)%nat then
            if (hd 0 json =? 91) && (last json 0 =? 93) then
              q_pure (new_node (q_heap p) ne newVal) (fun '(h, n) =>
              q_before_end (with_heap p h) ((if ne && (length (q_json p) =? 2)%nat then [] else [44]) ++ newVal) (fun p =>
              q_pure (label_of (q_heap p) curr) (fun l =>
              q_pure (attach (q_heap p) curr n l newVal) (fun h => QRet (with_heap p h) None))))
            else QRet p (Some EArrayExpected)
          else QRet p (Some (EBadJSON 0))
      | _ =>
          q_bind p (q_walk (q_heap p) (q_root p) path) (fun curr =>
          if (2 <=? length json)%nat then
            if (hd 0 json =? 91) && (last json 0 =? 93) then
              q_pure (new_node (q_heap p) ne newVal) (fun '(h, n) =>
              q_pure (label_of h curr) (fun l =>
              q_pure (attach h curr n l newVal) (fun h =>
              q_take_or_fail (with_heap p h) (Add_ (q_json p) newVal path) (q_refresh false (if ne then lenp - 1 else lenp) lenp path n))))
            else QRet p (Some EArrayExpected)
          else QRet p (Some (EBadJSON 0)))
      end)
  end.

(** parse_utils.go:84-98 [insert]: the loop of lines 90-92, and the rest.  [n.up] is assigned too *)
Fixpoint q_relabel (h : heap) (ds : list nat) (i : nat) : res heap :=
  match ds with
  | [] => Ok h
  | d :: r => do h <- write h (Some d) (set_label (itoa (Z.of_nat i + 1))); q_relabel h r (S i)
  end.
Definition q_insert (h : heap) (n up : nat) (index : Z) : res heap :=
  do '(_, cu) <- deref h (Some up);
  match c_down cu with
  | [] => Err EIndexOutOfRange
  | ds =>
      if (Z.of_nat (length ds) - 1 <? index)%Z then Err EIndexOutOfRange
      else if (index <? 0)%Z then Panic
      else
        do h <- q_relabel h (skipn (Z.to_nat index) ds) (Z.to_nat index);
        do h <- write h (Some n) (set_label (itoa index));
        write h (Some n) (set_up (Some up))
  end.

(** parse_add.go:225-339 [Parser.Insert] *)
Definition Q_Insert (p : qparser) (newIndex : Z) (newVal : bytes) (path : list bytes) : qres :=
  let lenp := length path in
  match newVal with
  | [] => QRet p (Some ENullKey)
  | _ =>
      q_bind p (Q_Get p path) (fun json =>
      let ne := (2 <=? length newVal)%nat && opens newVal in
      match path with
      | [] =>
          let curr := q_root p in
          if (2 <=? length json)%nat then
            if (hd 0 json =? 91) && (last json 0 =? 93) then
              q_pure (new_node (q_heap p) ne newVal) (fun '(h, n) =>
              q_bind (with_heap p h) (q_insert h n curr newIndex) (fun h =>
              if ne then
                q_take_or_fail (with_heap p h) (Insert (q_json p) newIndex newVal path) (fun p =>
                q_bind p (q_insert (q_heap p) n curr newIndex) (fun h =>
                q_pure (push_down h (Some curr) n) (fun h =>
                q_pure (write h (Some n) (set_up (Some curr))) (fun h => QRet (with_heap p h) None))))
              else
                q_pure (write h (Some n) (set_value newVal)) (fun h =>
                q_pure (push_down h (Some curr) n) (fun h =>
                q_take_or_fail (with_heap p h) (Insert (q_json p) newIndex newVal path) (fun p =>
                q_bind p (q_insert (q_heap p) n curr newIndex) (fun h =>
                q_pure (write h (Some n) (set_up (Some curr))) (fun h => QRet (with_heap p h) None)))))))
            else QRet p (Some EArrayExpected)
          else QRet p (Some (EBadJSON 0))
      | _ =>
          q_bind p (q_walk (q_heap p) (q_root p) path) (fun curr =>
          if (2 <=? length json)%nat then
            if (hd 0 json =? 91) && (last json 0 =? 93) then
              q_pure (new_node (q_heap p) ne newVal) (fun '(h, n) =>
              q_bind (with_heap p h) (q_insert h n curr newIndex) (fun h =>
              q_pure (write h (Some n) (set_value newVal)) (fun h =>
              q_pure (push_down h (Some curr) n) (fun h =>
              q_pure (write h (Some n) (set_up (Some curr))) (fun h =>
              q_take_or_fail (with_heap p h) (Insert (q_json p) newIndex newVal path) (q_refresh false lenp lenp path n))))))
            else QRet p (Some EArrayExpected)
          else QRet p (Some (EBadJSON 0)))
      end)
  end.

(** ** A history of calls: the parser at the end and the errors returned; [None] after a panic *)
Definition q_do (c : pcall) (p : qparser) : qres :=
  match c with
  | CSet v path => Q_Set p v path
  | CSetKey k path => Q_SetKey p k path
  | CDelete path => Q_Delete p path
  | CAddKeyValue k v path => Q_AddKeyValue p k v path
  | CAdd v path => Q_Add p v path
  | CInsert i v path => Q_Insert p i v path
  end.
Fixpoint q_calls (cs : list pcall) (p : qparser) : option (qparser * list (option err)) :=
  match cs with
  | [] => Some (p, [])
  | c :: r => match q_do c p with
              | QRet p e => match q_calls r p with Some (p', es) => Some (p', e :: es) | None => None end
              | QPanic => None
              end
  end.

(** The same calls of the model without pointers *)
Definition p_do (c : pcall) (p : parser) : pres :=
  match c with
  | CSet v path => P_Set p v path
  | CSetKey k path => P_SetKey p k path
  | CDelete path => P_Delete p path
  | CAddKeyValue k v path => P_AddKeyValue p k v path
  | CAdd v path => P_Add p v path
  | CInsert i v path => P_Insert p i v path
  end.
Fixpoint p_calls (cs : list pcall) (p : parser) : option (parser * list (option err)) :=
  match cs with
  | [] => Some (p, [])
  | c :: r => match p_do c p with
              | PRet p e => match p_calls r p with Some (p', es) => Some (p', e :: es) | None => None end
              | PPanic => None
              end
  end.
