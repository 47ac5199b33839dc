(** Model of the Parser: sequence.go, parse_core.go, parse_utils.go, parse_get.go, parse_set.go, parse_delete.go and
    parse_add.go (Tree and TreeFull are in Tree.v).

    Nodes hold slices of the parsed text and labels that share its memory (byteArrayToString); no function of the
    library writes into a text it was given, so both are modelled by their bytes (ParserMem.v has the memory).  The [up] pointers are modelled
    by position: every node is [up]'s child, and a node reached by walk is addressed by its path.  Pointers.v has the
    pointers; PointerProofs.v shows that both agree. *)
From Coq Require Import String.
From Verif Require Import GoStd Core Errors Api Iter Typed.

Local Open Scope N_scope.

(** parse_utils.go:8-13 [node]; a nil value is []. *)
Inductive node : Type := Node (label value : bytes) (down : list node).
Definition n_label (n : node) : bytes := let 'Node l _ _ := n in l.
Definition n_value (n : node) : bytes := let 'Node _ v _ := n in v.
Definition n_down (n : node) : list node := let 'Node _ _ d := n in d.

(** ** sequence.go: a stack of ints; the list with the top first.  [last] and [inc] of an empty one index -1,
    as does [pop] (sequence.go:25-31: the test [index > -1] succeeds at 0). *)
Definition seq_top (s : list nat) : res nat := match s with [] => Panic | x :: _ => Ok x end.
Definition seq_pop (s : list nat) : res (nat * list nat) := match s with [] => Panic | x :: r => Ok (x, r) end.
Definition seq_inc (s : list nat) : res (list nat) := match s with [] => Panic | x :: r => Ok (S x :: r) end.

(** The node under construction, without the children still open: its label, and its children, newest first.
    The first frame is [core], the next one [core.up], and so on. *)
Record frame : Type := Fr { fr_label : bytes; fr_value : bytes; fr_down : list node }.
Definition close_frame (f : frame) : node := Node (fr_label f) (fr_value f) (rev (fr_down f)).
Definition frame_add (n : node) (f : frame) : frame := Fr (fr_label f) (fr_value f) (n :: fr_down f).

(** [core.down = append(core.down, n)]; a nil core panics *)
Definition add_down (n : node) (up : list frame) : res (list frame) :=
  match up with [] => Panic | f :: r => Ok (frame_add n f :: r) end.

(** parse_core.go:91-92: [core.value = v; core = core.up] *)
Definition go_up (v : bytes) (up : list frame) : res (list frame) :=
  match up with
  | [] => Panic
  | [f] => Ok []
  | f :: g :: r => Ok (frame_add (close_frame (Fr (fr_label f) v (fr_down f))) g :: r)
  end.

(** All nodes still open are children of the one above; the children of the last. *)
Fixpoint close_onto (n : node) (up : list frame) : list node :=
  match up with
  | [] => [n]
  | [f] => rev (n :: fr_down f)
  | f :: r => close_onto (close_frame (frame_add n f)) r
  end.
Definition close_all (up : list frame) : list node :=
  match up with
  | [] => []
  | [f] => rev (fr_down f)
  | f :: r => close_onto (close_frame f) r
  end.

(** parse_core.go:57-66: the label of a container *)
Definition open_label (last : N) (key : bytes) (idx : list nat) : res bytes :=
  if last =? 58 then Ok key else do n <- seq_top idx; Ok (itoa (Z.of_nat n)).

(** parse_core.go:30-115, the loop of pCore.  [stop] is the variable [end]; [up] is [core] and the nodes above. *)
Fixpoint p_loop (json rest : bytes) (i : nat) (inq : bool) (start stop : nat) (key : bytes) (vs : nat) (last : N)
         (braces idx : list nat) (up : list frame) : res (list node) :=
  match rest with
  | [] => Ok (close_all up)
  | c :: r =>
      if c =? 34 then
        if inq then
          match qscan json i with
          | Some true => p_loop json r (S i) false start i key vs last braces idx up
          | Some false => p_loop json r (S i) true start stop key vs last braces idx up
          | None => p_loop json r (S i) true (S i) stop key vs last braces idx up
          end
        else p_loop json r (S i) true (S i) stop key vs last braces idx up
      else if inq then p_loop json r (S i) inq start stop key vs last braces idx up
      else if is_open c then
        do lbl <- open_label last key idx;
        match up with
        | [] => Panic
        | _ => p_loop json r (S i) inq start stop key (S i) c (i :: braces) (0%nat :: idx) (Fr lbl [] [] :: up)
        end
      else if is_close c then
        do '(up, vs) <-
          (if last =? 58 then
             do v <- slice json vs i; do up <- add_down (Node key v []) up; Ok (up, vs)
           else if last =? 44 then
             do n <- seq_top idx; do v <- slice json vs i;
             do up <- add_down (Node (itoa (Z.of_nat n)) v []) up; Ok (up, S i)
           else Ok (up, vs));
        do '(bp, braces) <- seq_pop braces;
        do v <- slice json bp (S i);
        do '(_, idx) <- seq_pop idx;
        do up <- go_up v up;
        p_loop json r (S i) inq start stop key vs c braces idx up
      else if c =? 58 then
        do key <- slice json start stop;
        p_loop json r (S i) inq start stop key (S i) 58 braces idx up
      else if c =? 44 then
        do up <-
          (if last =? 58 then do v <- slice json vs i; add_down (Node key v []) up
           else if (last =? 44) || (last =? 91) then
             do n <- seq_top idx; do v <- slice json vs i; add_down (Node (itoa (Z.of_nat n)) v []) up
           else Ok up);
        do idx <- seq_inc idx;
        p_loop json r (S i) inq start stop key (S i) 44 braces idx up
      else p_loop json r (S i) inq start stop key vs last braces idx up
  end.

(** parse_core.go:5-118 [pCore], called with a new node; the result is that node's children. *)
Definition pCore (json : bytes) : res (list node) :=
  if (length json <? 2)%nat then Ok []
  else
    do start <- skip_space json 0;
    p_loop json (skipn start json) start false start 0 [] 0 0 [] [0%nat] [Fr [] [] []].

(** parse_utils.go:18-21 [Parser] *)
Record parser : Type := Par { p_core : node; p_json : bytes }.

(** parse_utils.go:70-82 [Parse] *)
Definition Parse (json : bytes) : res parser :=
  do down <- pCore json;
  match down with [] => Err (EBadJSON 0) | n :: _ => Ok (Par n json) end.

(** ** Reading *)

(** The child walk looks for (parse_utils.go:111-116) *)
Fixpoint find_node (x : bytes) (ns : list node) : option node :=
  match ns with
  | [] => None
  | n :: r => if bytes_eqb (n_label n) x then Some n else find_node x r
  end.

(** parse_utils.go:110-123 [walk] *)
Fixpoint n_walk (n : node) (path : list bytes) : res node :=
  match path with
  | [] => Ok n
  | x :: p => match find_node x (n_down n) with Some c => n_walk c p | None => Err (EKeyNotFound x) end
  end.

(** parse_get.go:6-8 [JSON] *)
Definition P_JSON (p : parser) : bytes := p_json p.

(** parse_get.go:15-24 [Parser.Get], parse_get.go:50-56 [Parser.GetString] *)
Definition P_Get (p : parser) (path : list bytes) : res bytes :=
  match path with
  | [] => Ok (p_json p)
  | _ => do n <- n_walk (p_core p) path; cleanValue (n_value n)
  end.
Definition P_GetString := P_Get.

(** parse_utils.go:28-36 [packKeyValue], [packValue]; parse_utils.go:44-67 [dive] without its prefix argument, which is
    empty in every call. *)
Definition packKeyValue (label value : bytes) : bytes := 34 :: label ++ 34 :: 58 :: value.
Fixpoint dive (n : node) : res bytes :=
  match n with
  | Node _ value down =>
      do c <- at_ value 0;
      do items <-
        (fix go (ds : list node) : res bytes :=
           match ds with
           | [] => Ok []
           | (Node l v dd as d) :: r =>
               do val <- (match dd with [] => Ok v | _ => dive d end);
               do rest <- go r;
               Ok ((if c =? 123 then packKeyValue l val else []) ++ (if c =? 91 then val else []) ++ 44 :: rest)
           end) down;
      Ok (removelast (c :: items) ++ [(c + 2) mod 256])
  end.

(** parse_get.go:31-46 [GetNew]; nil is [] *)
Definition P_GetNew (p : parser) (path : list bytes) : res bytes :=
  match n_walk (p_core p) path with
  | Err _ => Ok []
  | Panic => Panic
  | Ok n => match n_down n with
            | [] => cleanValue (n_value n)
            | _ => do t <- dive n; cleanValue t
            end
  end.

(** parse_get.go:61-71 [GetInt], 91-103 [GetBool], 108-125 [GetStringArray], 130-191 [GetIntArray], 262-333 [GetBoolArray]:
    word for word what inter_get.go does with the text found. *)
Definition P_GetInt (p : parser) (path : list bytes) : res Z := do v <- P_GetString p path; GetInt v [].
Definition P_GetBool (p : parser) (path : list bytes) : res bool := do v <- P_GetString p path; GetBool v [].
Definition P_GetStringArray (p : parser) (path : list bytes) : res (list bytes) := do v <- P_GetString p path; GetStringArray v [].
Definition P_GetIntArray (p : parser) (path : list bytes) : res (list Z) := do v <- P_GetString p path; GetIntArray v [].
Definition P_GetBoolArray (p : parser) (path : list bytes) : res (list bool) := do v <- P_GetString p path; GetBoolArray v [].
(** parse_get.go:76-86 [GetFloat], 196-257 [GetFloatArray]; [pf] is strconv.ParseFloat *)
Definition P_GetFloat {F : Type} (pf : bytes -> option F) (p : parser) (path : list bytes) : res F := do v <- P_GetString p path; GetFloat pf v [].
Definition P_GetFloatArray {F : Type} (pf : bytes -> option F) (p : parser) (path : list bytes) : res (list F) :=
  do v <- P_GetString p path; GetFloatArray pf v [].

(** ** Updating: the parser afterwards and the returned error, or a panic *)
Inductive pres : Type :=
| PRet (p : parser) (e : option err)
| PPanic.

(** [x, err := r; if err != nil { return err }] *)
Definition p_bind {A : Type} (p : parser) (r : res A) (k : A -> pres) : pres :=
  match r with Ok a => k a | Err e => PRet p (Some e) | Panic => PPanic end.
(** For calls whose error is ignored or impossible *)
Definition p_pure {A : Type} (r : res A) (k : A -> pres) : pres :=
  match r with Ok a => k a | _ => PPanic end.

(** The node reached by [path] changed by [f] *)
Fixpoint upd_first (x : bytes) (f : node -> node) (ns : list node) : list node :=
  match ns with
  | [] => []
  | n :: r => if bytes_eqb (n_label n) x then f n :: r else n :: upd_first x f r
  end.
Fixpoint upd_node (path : list bytes) (f : node -> node) (n : node) : node :=
  match path with
  | [] => f n
  | x :: p => let 'Node l v d := n in Node l v (upd_first x (upd_node p f) d)
  end.
Definition with_value (v : bytes) (n : node) : node := let 'Node l _ d := n in Node l v d.
Definition with_label (l : bytes) (n : node) : node := let 'Node _ v d := n in Node l v d.
Definition with_down (d : list node) (n : node) : node := let 'Node l v _ := n in Node l v d.
Definition append_node (c n : node) : node := with_down (n_down n ++ [c]) n.

(** The non-empty prefixes of a path, longest first: the paths of a node and of the nodes above it, without the root *)
Fixpoint ancestors (path : list bytes) : list (list bytes) :=
  match path with
  | [] => []
  | x :: p => map (cons x) (ancestors p) ++ [[x]]
  end.

(** e.g. parse_set.go:33-39: [curr = curr.up; curr.value, err = Get(p.json, ...); if err != nil { return err }] *)
Fixpoint refresh (paths : list (list bytes)) (p : parser) : pres :=
  match paths with
  | [] => PRet p None
  | a :: r =>
      match Get (p_json p) a with
      | Ok v => refresh r (Par (upd_node a (with_value v) (p_core p)) (p_json p))
      | Err e => PRet (Par (upd_node a (with_value []) (p_core p)) (p_json p)) (Some e)
      | Panic => PPanic
      end
  end.

Definition odef (o : option bytes) : bytes := match o with Some t => t | None => [] end.

(** [p.json, _ = r] *)
Definition take_text (p : parser) (r : upd) (k : parser -> pres) : pres :=
  match r with
  | Done out => k (Par (p_core p) out)
  | Fail out _ => k (Par (p_core p) (odef out))
  | UPanic => PPanic
  end.
(** [p.json, err = r; if err != nil { return err }] *)
Definition take_or_fail (p : parser) (r : upd) (k : parser -> pres) : pres :=
  match r with
  | Done out => k (Par (p_core p) out)
  | Fail out e => PRet (Par (p_core p) (odef out)) (Some e)
  | UPanic => PPanic
  end.

Definition opens (v : bytes) : bool := match v with c :: _ => is_open c | [] => false end.

(** parse_set.go:9-51 [Parser.Set] *)
Definition P_Set (p : parser) (newVal : bytes) (path : list bytes) : pres :=
  match path with
  | [] => PRet p (Some ENullPath)
  | _ =>
      p_bind p (n_walk (p_core p) path) (fun _ =>
      let go (f : node -> node) :=
        take_text (Par (upd_node path f (p_core p)) (p_json p)) (Set_ (p_json p) newVal path)
          (refresh (tl (ancestors path))) in
      if (2 <=? length newVal)%nat && opens newVal then
        p_pure (pCore newVal) (fun down => go (fun n => Node (n_label n) newVal down))
      else go (with_value newVal))
  end.

(** parse_set.go:55-60 [Parser.SetString] *)
Definition P_SetString (p : parser) (newValue : bytes) (path : list bytes) : pres :=
  match newValue with
  | [] => PPanic
  | c :: _ => if negb (c =? 34) && negb (last newValue 0 =? 34) then P_Set p (quote newValue) path else P_Set p newValue path
  end.

(** parse_set.go:64-84 [SetInt], [SetFloat] (the text of the number is given), [SetBool] *)
Definition P_SetInt (p : parser) (newValue : Z) (path : list bytes) : pres := P_Set p (itoa newValue) path.
Definition P_SetFloat (p : parser) (newValue : bytes) (path : list bytes) : pres := P_Set p newValue path.
Definition P_SetBool (p : parser) (newValue : bool) (path : list bytes) : pres := P_Set p (bool_text newValue) path.

Definition has_label (x : bytes) (ns : list node) : bool := match find_node x ns with Some _ => true | None => false end.

(** parse_set.go:87-117 [Parser.SetKey]; errors of the last loop are ignored *)
Fixpoint refresh_quiet (paths : list (list bytes)) (p : parser) : pres :=
  match paths with
  | [] => PRet p None
  | a :: r =>
      match Get (p_json p) a with
      | Ok v => refresh_quiet r (Par (upd_node a (with_value v) (p_core p)) (p_json p))
      | Err _ => refresh_quiet r (Par (upd_node a (with_value []) (p_core p)) (p_json p))
      | Panic => PPanic
      end
  end.
Definition P_SetKey (p : parser) (newKey : bytes) (path : list bytes) : pres :=
  match path with
  | [] => PRet p (Some ENullPath)
  | _ =>
      match newKey with
      | [] => PRet p (Some ENullKey)
      | _ =>
          p_bind p (n_walk (p_core p) path) (fun _ =>
          p_pure (n_walk (p_core p) (removelast path)) (fun up =>
          if has_label newKey (n_down up) then PRet p (Some (EKeyAlreadyExist newKey))
          else
            take_text (Par (upd_node path (with_label newKey) (p_core p)) (p_json p)) (SetKey (p_json p) newKey path)
              (refresh_quiet (tl (ancestors path)))))
      end
  end.

(** parse_utils.go:100-108 [deAttach] *)
Definition drop_label (x : bytes) (n : node) : node :=
  with_down (filter (fun d => negb (bytes_eqb (n_label d) x)) (n_down n)) n.

(** parse_delete.go:6-30 [Parser.Delete] *)
Definition P_Delete (p : parser) (path : list bytes) : pres :=
  match path with
  | [] => PRet p (Some ENullPath)
  | _ =>
      p_bind p (n_walk (p_core p) path) (fun n =>
      take_or_fail (Par (upd_node (removelast path) (drop_label (n_label n)) (p_core p)) (p_json p)) (Delete (p_json p) path)
        (refresh (tl (ancestors path))))
  end.

(** [`"` + key + `":` + string(newVal)] *)
Definition pair_text (key newVal : bytes) : bytes := 34 :: key ++ 34 :: 58 :: newVal.

(** [p.json = replace(p.json, t, len(p.json)-1, len(p.json)-1)] *)
Definition put_before_end (p : parser) (t : bytes) (k : parser -> pres) : pres :=
  p_pure (replace (p_json p) t (pred (length (p_json p))) (pred (length (p_json p)))) (fun j => k (Par (p_core p) j)).

(** parse_add.go:10-114 [Parser.AddKeyValue].  [lenv] is the length of the key.  [newVal] is not nil: for a nil
    one see ParserNil.v. *)
Definition P_AddKeyValue (p : parser) (key newVal : bytes) (path : list bytes) : pres :=
  match key with
  | [] => PRet p (Some ENullKey)
  | _ =>
      p_bind p (P_Get p path) (fun json =>
      (* if lenv >= 2 { if newVal[0] == 91 || newVal[0] == 123 { ... *)
      let nested (k : option (list node) -> pres) :=
        if (2 <=? length key)%nat then
          p_pure (at_ newVal 0) (fun c => if is_open c then p_pure (pCore newVal) (fun d => k (Some d)) else k None)
        else k None in
      match path with
      | [] =>
          if has_label key (n_down (p_core p)) then PRet p (Some (EKeyAlreadyExist key))
          else if (2 <=? length json)%nat then
            if (hd 0 json =? 123) && (last json 0 =? 125) then
              nested (fun o =>
              let p' := Par (append_node (Node key newVal (match o with Some d => d | None => [] end)) (p_core p)) (p_json p) in
              let comma := match o with Some _ => negb (length (p_json p) =? 2)%nat | None => true end in
              put_before_end p' ((if comma then [44] else []) ++ pair_text key newVal) (fun p => PRet p None))
            else PRet p (Some EObjectExpected)
          else PRet p (Some (EBadJSON 0))
      | _ =>
          p_bind p (n_walk (p_core p) path) (fun _ =>
          p_pure (n_walk (p_core p) (removelast path)) (fun up =>
          if has_label key (n_down up) then PRet p (Some (EKeyAlreadyExist key))
          else if (2 <=? length json)%nat then
            if (hd 0 json =? 123) && (last json 0 =? 125) then
              nested (fun o =>
              let new := Node key newVal (match o with Some d => d | None => [] end) in
              take_or_fail (Par (upd_node path (append_node new) (p_core p)) (p_json p))
                (AddKeyValue (p_json p) key (Some newVal) path) (refresh (ancestors path)))
            else PRet p (Some EObjectExpected)
          else PRet p (Some (EBadJSON 0))))
      end)
  end.

(** parse_add.go:119-220 [Parser.Add].  After a container the value of the outermost node on the path is not
    refreshed (line 184 counts to lenp-1). *)
Definition P_Add (p : parser) (newVal : bytes) (path : list bytes) : pres :=
  match newVal with
  | [] => PRet p (Some ENullKey)
  | _ =>
      p_bind p (P_Get p path) (fun json =>
      let nested (k : option (list node) -> pres) :=
        if (2 <=? length newVal)%nat && opens newVal then p_pure (pCore newVal) (fun d => k (Some d)) else k None in
      let new (curr : node) (o : option (list node)) :=
        Node (itoa (Z.of_nat (length (n_down curr)))) newVal (match o with Some d => d | None => [] end) in
      match path with
      | [] =>
          if (2 <=? length json)%nat then
            if (hd 0 json =? 91) && (last json 0 =? 93) then
              nested (fun o =>
              let p' := Par (append_node (new (p_core p) o) (p_core p)) (p_json p) in
              let comma := match o with Some _ => negb (length (p_json p) =? 2)%nat | None => true end in
              put_before_end p' ((if comma then [44] else []) ++ newVal) (fun p => PRet p None))
            else PRet p (Some EArrayExpected)
          else PRet p (Some (EBadJSON 0))
      | _ =>
          p_bind p (n_walk (p_core p) path) (fun curr =>
          if (2 <=? length json)%nat then
            if (hd 0 json =? 91) && (last json 0 =? 93) then
              nested (fun o =>
              take_or_fail (Par (upd_node path (append_node (new curr o)) (p_core p)) (p_json p))
                (Add_ (p_json p) newVal path)
                (refresh (match o with Some _ => removelast (ancestors path) | None => ancestors path end)))
            else PRet p (Some EArrayExpected)
          else PRet p (Some (EBadJSON 0)))
      end)
  end.

(** parse_utils.go:84-98 [insert]: relabels the children from position [index] on; Panic for a negative index. *)
Fixpoint relabel (ns : list node) (i : nat) (index : Z) : list node :=
  match ns with
  | [] => []
  | n :: r => (if (index <=? Z.of_nat i)%Z then with_label (itoa (Z.of_nat i + 1)) n else n) :: relabel r (S i) index
  end.
Definition n_insert (ns : list node) (index : Z) : res (list node) :=
  match ns with
  | [] => Err EIndexOutOfRange
  | _ => if (Z.of_nat (length ns) - 1 <? index)%Z then Err EIndexOutOfRange
         else if (index <? 0)%Z then Panic else Ok (relabel ns 0 index)
  end.

(** parse_add.go:225-339 [Parser.Insert].  At the root a new container gets no value (line 232-247), and insert is
    called again after the node was appended (lines 257-265). *)
Definition P_Insert (p : parser) (newIndex : Z) (newVal : bytes) (path : list bytes) : pres :=
  match newVal with
  | [] => PRet p (Some ENullKey)
  | _ =>
      p_bind p (P_Get p path) (fun json =>
      let nested (k : option (list node) -> pres) :=
        if (2 <=? length newVal)%nat && opens newVal then p_pure (pCore newVal) (fun d => k (Some d)) else k None in
      let lbl := itoa newIndex in
      match path with
      | [] =>
          if (2 <=? length json)%nat then
            if (hd 0 json =? 91) && (last json 0 =? 93) then
              nested (fun o =>
              p_bind p (n_insert (n_down (p_core p)) newIndex) (fun ns =>
              match o with
              | Some d =>
                  take_or_fail (Par (with_down ns (p_core p)) (p_json p)) (Insert (p_json p) newIndex newVal path) (fun p =>
                  p_bind p (n_insert (n_down (p_core p)) newIndex) (fun ns =>
                  PRet (Par (append_node (Node lbl [] d) (with_down ns (p_core p))) (p_json p)) None))
              | None =>
                  take_or_fail (Par (append_node (Node lbl newVal []) (with_down ns (p_core p))) (p_json p))
                    (Insert (p_json p) newIndex newVal path) (fun p =>
                  p_bind p (n_insert (n_down (p_core p)) newIndex) (fun ns =>
                  PRet (Par (with_down (removelast ns ++ [Node lbl newVal []]) (p_core p)) (p_json p)) None))
              end))
            else PRet p (Some EArrayExpected)
          else PRet p (Some (EBadJSON 0))
      | _ =>
          p_bind p (n_walk (p_core p) path) (fun curr =>
          if (2 <=? length json)%nat then
            if (hd 0 json =? 91) && (last json 0 =? 93) then
              nested (fun o =>
              p_bind p (n_insert (n_down curr) newIndex) (fun ns =>
              let new := Node lbl newVal (match o with Some d => d | None => [] end) in
              take_or_fail (Par (upd_node path (fun n => append_node new (with_down ns n)) (p_core p)) (p_json p))
                (Insert (p_json p) newIndex newVal path) (refresh (ancestors path))))
            else PRet p (Some EArrayExpected)
          else PRet p (Some (EBadJSON 0)))
      end)
  end.

(** parse_add.go:341-444: the typed variants; for floats the text FormatFloat makes of the number is given *)
Definition P_AddKeyValueString pf (p : parser) (key value : bytes) (path : list bytes) : pres :=
  match key with [] => PRet p (Some ENullKey) | _ => P_AddKeyValue p key (formatType pf value) path end.
Definition P_AddKeyValueInt (p : parser) (key : bytes) (value : Z) (path : list bytes) : pres :=
  match key with [] => PRet p (Some ENullKey) | _ => P_AddKeyValue p key (itoa value) path end.
Definition P_AddKeyValueFloat (p : parser) (key value : bytes) (path : list bytes) : pres :=
  match key with [] => PRet p (Some ENullKey) | _ => P_AddKeyValue p key value path end.
Definition P_AddKeyValueBool (p : parser) (key : bytes) (value : bool) (path : list bytes) : pres :=
  match key with [] => PRet p (Some ENullKey) | _ => P_AddKeyValue p key (bool_text value) path end.
Definition P_AddString pf (p : parser) (value : bytes) (path : list bytes) : pres := P_Add p (formatType pf value) path.
Definition P_AddInt (p : parser) (value : Z) (path : list bytes) : pres := P_Add p (itoa value) path.
Definition P_AddFloat (p : parser) (value : bytes) (path : list bytes) : pres := P_Add p value path.
Definition P_AddBool (p : parser) (value : bool) (path : list bytes) : pres := P_Add p (bool_text value) path.
Definition P_InsertString pf (p : parser) (index : Z) (value : bytes) (path : list bytes) : pres :=
  if (index <? 0)%Z then PRet p (Some EIndexOutOfRange) else P_Insert p index (formatType pf value) path.
Definition P_InsertInt (p : parser) (index : Z) (value : Z) (path : list bytes) : pres :=
  if (index <? 0)%Z then PRet p (Some EIndexOutOfRange) else P_Insert p index (itoa value) path.
Definition P_InsertFloat (p : parser) (index : Z) (value : bytes) (path : list bytes) : pres :=
  if (index <? 0)%Z then PRet p (Some EIndexOutOfRange) else P_Insert p index value path.
Definition P_InsertBool (p : parser) (index : Z) (value : bool) (path : list bytes) : pres :=
  if (index <? 0)%Z then PRet p (Some EIndexOutOfRange) else P_Insert p index (bool_text value) path.
