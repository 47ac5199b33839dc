(** The Parser on the memory of GoMem.v: which windows of which arrays its nodes hold, and what is written where.

    Parser.v models every slice by its bytes.  Here a node's value is a slice, and the label of a member is the string
    byteArrayToString (utils.go:147-149) makes of a key: a view of the same bytes, not a copy.  Labels made by strconv.Itoa or
    given as an argument are strings of their own, which nobody can write to.  As in Parser.v nodes are addressed by their paths
    (Pointers.v has the pointers); every slice, sub-slice, append and conversion is explicit. *)
From Coq Require Import String.
From Verif Require Import GoStd Core Errors Api Iter Typed Parser GoMem Mem.

Local Open Scope N_scope.

(** parse_utils.go:8-13 [node] and parse_utils.go:18-21 [Parser] *)
Inductive mlabel : Type := Own (t : bytes) | Seen (s : bsl).
Inductive mnode : Type := MNode (label : mlabel) (value : bsl) (down : list mnode).
Record mparser : Type := MPar { mp_core : mnode; mp_json : bsl }.
Definition m_label (n : mnode) : mlabel := let 'MNode l _ _ := n in l.
Definition m_value (n : mnode) : bsl := let 'MNode _ v _ := n in v.
Definition m_down (n : mnode) : list mnode := let 'MNode _ _ d := n in d.

(** The nil slice *)
Definition nil_ : bsl := Bsl 0 0 0 0.

(** The text of a label *)
Definition label_text (h : mem) (l : mlabel) : bytes := match l with Own t => t | Seen s => content h s end.

(** [s[i:j]] in an expression that reads memory only *)
Definition cut (s : bsl) (i j : nat) : res bsl :=
  if ((i <=? j) && (j <=? b_cap s))%nat then Ok (Bsl (b_arr s) (b_off s + i) (j - i) (b_cap s - i)) else Panic.

(** The memory, for expressions that read it *)
Definition ask : M mem := fun h => Some (h, h).

(** ** pCore: as in Parser.v, with slices for bytes *)
Record mframe : Type := MFr { mf_label : mlabel; mf_value : bsl; mf_down : list mnode }.
Definition m_close_frame (f : mframe) : mnode := MNode (mf_label f) (mf_value f) (rev (mf_down f)).
Definition m_frame_add (n : mnode) (f : mframe) : mframe := MFr (mf_label f) (mf_value f) (n :: mf_down f).
(** [core.down = append(core.down, n)] *)
Definition m_add_down (n : mnode) (up : list mframe) : res (list mframe) :=
  match up with [] => Panic | f :: r => Ok (m_frame_add n f :: r) end.
(** parse_core.go:91-93: [core.value = v; core = core.up] *)
Definition m_go_up (v : bsl) (up : list mframe) : res (list mframe) :=
  match up with
  | [] => Panic
  | [f] => Ok []
  | f :: g :: r => Ok (m_frame_add (m_close_frame (MFr (mf_label f) v (mf_down f))) g :: r)
  end.
Fixpoint m_close_onto (n : mnode) (up : list mframe) : list mnode :=
  match up with
  | [] => [n]
  | [f] => rev (n :: mf_down f)
  | f :: r => m_close_onto (m_close_frame (m_frame_add n f)) r
  end.
Definition m_close_all (up : list mframe) : list mnode :=
  match up with
  | [] => []
  | [f] => rev (mf_down f)
  | f :: r => m_close_onto (m_close_frame f) r
  end.

(** parse_core.go:64-74: the label of a container *)
Definition m_open_label (last : N) (key : bsl) (idx : list nat) : res mlabel :=
  if last =? 58 then Ok (Seen key) else do n <- seq_top idx; Ok (Own (itoa (Z.of_nat n))).

(** parse_core.go:30-115, the loop of pCore; [t] are the bytes [json] shows and [rest] those from [i] on *)
Fixpoint m_loop (json : bsl) (t rest : bytes) (i : nat) (inq : bool) (start stop : nat) (key : bsl) (vs : nat) (last : N)
         (braces idx : list nat) (up : list mframe) : res (list mnode) :=
  match rest with
  | [] => Ok (m_close_all up)
  | c :: r =>
      if c =? 34 then
        if inq then
          match qscan t i with
          | Some true => m_loop json t r (S i) false start i key vs last braces idx up
          | Some false => m_loop json t r (S i) true start stop key vs last braces idx up
          | None => m_loop json t r (S i) true (S i) stop key vs last braces idx up
          end
        else m_loop json t r (S i) true (S i) stop key vs last braces idx up
      else if inq then m_loop json t r (S i) inq start stop key vs last braces idx up
      else if is_open c then
        do lbl <- m_open_label last key idx;
        match up with
        | [] => Panic
        | _ => m_loop json t r (S i) inq start stop key (S i) c (i :: braces) (0%nat :: idx) (MFr lbl nil_ [] :: up)
        end
      else if is_close c then
        do '(up, vs) <-
          (if last =? 58 then
             do v <- cut json vs i; do up <- m_add_down (MNode (Seen key) v []) up; Ok (up, vs)
           else if last =? 44 then
             do n <- seq_top idx; do v <- cut json vs i;
             do up <- m_add_down (MNode (Own (itoa (Z.of_nat n))) v []) up; Ok (up, S i)
           else Ok (up, vs));
        do '(bp, braces) <- seq_pop braces;
        do v <- cut json bp (S i);
        do '(_, idx) <- seq_pop idx;
        do up <- m_go_up v up;
        m_loop json t r (S i) inq start stop key vs c braces idx up
      else if c =? 58 then
        do key <- cut json start stop;
        m_loop json t r (S i) inq start stop key (S i) 58 braces idx up
      else if c =? 44 then
        do up <-
          (if last =? 58 then do v <- cut json vs i; m_add_down (MNode (Seen key) v []) up
           else if (last =? 44) || (last =? 91) then
             do n <- seq_top idx; do v <- cut json vs i; m_add_down (MNode (Own (itoa (Z.of_nat n))) v []) up
           else Ok up);
        do idx <- seq_inc idx;
        m_loop json t r (S i) inq start stop key (S i) 44 braces idx up
      else m_loop json t r (S i) inq start stop key vs last braces idx up
  end.

(** parse_core.go:5-118 [pCore] *)
Definition pCoreM (json : bsl) : M (list mnode) :=
  let! t := look json in
  eval (if (length t <? 2)%nat then Ok []
        else
          do start <- skip_space t 0;
          m_loop json t (skipn start t) start false start 0 nil_ 0 0 [] [0%nat] [MFr (Own []) nil_ []]).

(** parse_utils.go:70-82 [Parse] *)
Definition ParseM (json : bsl) : M (err + mparser) :=
  let! down := pCoreM json in
  ret (match down with [] => inl (EBadJSON 0) | n :: _ => inr (MPar n json) end).

(** ** Reading *)
Fixpoint m_find (h : mem) (x : bytes) (ns : list mnode) : option mnode :=
  match ns with
  | [] => None
  | n :: r => if bytes_eqb (label_text h (m_label n)) x then Some n else m_find h x r
  end.
(** parse_utils.go:110-123 [walk] *)
Fixpoint m_walk (h : mem) (n : mnode) (path : list bytes) : res mnode :=
  match path with
  | [] => Ok n
  | x :: p => match m_find h x (m_down n) with Some c => m_walk h c p | None => Err (EKeyNotFound x) end
  end.

(** utils.go:121-145 [cleanValue]: [start] counts the leading blanks dropped, [stop] is [end+1] *)
Definition cleanValueM (str : bsl) : M bsl :=
  let! t := look str in
  match t with
  | [] => ret str
  | _ =>
      let u := rev (trim1 (rev (trim1 t))) in
      let start := (length t - length (trim1 t))%nat in
      let stop := (start + length u)%nat in
      if (nth start t 0 =? 34) && (nth (pred stop) t 0 =? 34) then sub str (S start) (pred stop) else sub str start stop
  end.

(** parse_get.go:6-8 [JSON] *)
Definition P_JSONM (p : mparser) : bsl := mp_json p.

(** parse_get.go:15-24 [Parser.Get] *)
Definition P_GetM (p : mparser) (path : list bytes) : M (err + bsl) :=
  match path with
  | [] => ret (inr (mp_json p))
  | _ => let! h := ask in
         match m_walk h (mp_core p) path with
         | Panic => panic
         | Err e => ret (inl e)
         | Ok n => let! v := cleanValueM (m_value n) in ret (inr v)
         end
  end.

Section ParserMem.
  Variable grow : nat -> nat.

  (** parse_utils.go:28-36 [packKeyValue], 38-42 [packValue] *)
  Definition packKeyValueM (label : bytes) (value : bsl) : M bsl :=
    let! out := make_cap 16 in
    let! out := append_bytes grow out [34] in
    let! out := append_bytes grow out label in
    let! out := append_bytes grow out [34] in
    let! out := append_bytes grow out [58] in
    append_slice grow out value.
  Definition packValueM (value : bsl) : M bsl :=
    let! out := make_cap 16 in append_slice grow out value.

  (** parse_utils.go:44-67 [dive].  [buf] is the argument [bytes]: the recursive calls all append to the same array, each
      from the same position on. *)
  Fixpoint diveM (n : mnode) (buf : bsl) : M bsl :=
    match n with
    | MNode _ value down =>
        let! v := look value in
        let! temp := make_cap 32 in
        let! c := eval (at_ v 0) in
        let! temp := append_bytes grow temp [c] in
        let! temp :=
          (fix go (ds : list mnode) (temp : bsl) : M bsl :=
             match ds with
             | [] => ret temp
             | (MNode l dv dd as d) :: r =>
                 let! val := match dd with [] => ret dv | _ => diveM d buf end in
                 let! h := ask in
                 let! temp := (if c =? 123 then let! kv := packKeyValueM (label_text h l) val in append_slice grow temp kv else ret temp) in
                 let! temp := (if c =? 91 then let! kv := packValueM val in append_slice grow temp kv else ret temp) in
                 let! temp := append_bytes grow temp [44] in
                 go r temp
             end) down temp in
        if (b_len temp =? 0)%nat then ret nil_
        else
          let! temp := sub_to temp (pred (b_len temp)) in
          let! temp := append_bytes grow temp [(c + 2) mod 256] in
          append_slice grow buf temp
    end.

  (** parse_get.go:31-46 [GetNew] *)
  Definition P_GetNewM (p : mparser) (path : list bytes) : M bsl :=
    let! h := ask in
    match m_walk h (mp_core p) path with
    | Err _ => ret nil_
    | Panic => panic
    | Ok n =>
        match m_down n with
        | [] => cleanValueM (m_value n)
        | _ => let! temp := make_cap 128 in let! temp := diveM n temp in cleanValueM temp
        end
    end.

  (** ** Updating *)
  Definition PM : Type := M (mparser * option err).

  Fixpoint m_upd_first (h : mem) (x : bytes) (f : mnode -> mnode) (ns : list mnode) : list mnode :=
    match ns with
    | [] => []
    | n :: r => if bytes_eqb (label_text h (m_label n)) x then f n :: r else n :: m_upd_first h x f r
    end.
  Fixpoint m_upd_node (h : mem) (path : list bytes) (f : mnode -> mnode) (n : mnode) : mnode :=
    match path with
    | [] => f n
    | x :: p => let 'MNode l v d := n in MNode l v (m_upd_first h x (m_upd_node h p f) d)
    end.
  Definition m_with_value (v : bsl) (n : mnode) : mnode := let 'MNode l _ d := n in MNode l v d.
  Definition m_with_label (l : mlabel) (n : mnode) : mnode := let 'MNode _ v d := n in MNode l v d.
  Definition m_with_down (d : list mnode) (n : mnode) : mnode := let 'MNode l v _ := n in MNode l v d.
  Definition m_append_node (c n : mnode) : mnode := m_with_down (m_down n ++ [c]) n.

  (** e.g. parse_set.go:42-48: [curr = curr.up; curr.value, err = Get(p.json, ...); if err != nil { return err }] *)
  Fixpoint refreshM (paths : list (list bytes)) (p : mparser) : PM :=
    match paths with
    | [] => ret (p, None)
    | a :: r =>
        let! g := GetM (mp_json p) a in
        let! h := ask in
        match g with
        | inr v => refreshM r (MPar (m_upd_node h a (m_with_value v) (mp_core p)) (mp_json p))
        | inl e => ret (MPar (m_upd_node h a (m_with_value nil_) (mp_core p)) (mp_json p), Some e)
        end
    end.
  (** parse_set.go:109-115: the error of Get is dropped *)
  Fixpoint refresh_quietM (paths : list (list bytes)) (p : mparser) : PM :=
    match paths with
    | [] => ret (p, None)
    | a :: r =>
        let! g := GetM (mp_json p) a in
        let! h := ask in
        refresh_quietM r (MPar (m_upd_node h a (m_with_value (match g with inr v => v | inl _ => nil_ end)) (mp_core p)) (mp_json p))
    end.

  (** [p.json, _ = m] and [p.json, err = m; if err != nil { return err }] *)
  Definition take_textM (core : mnode) (m : M mupd) (k : mparser -> PM) : PM :=
    let! r := m in match r with MDone out => k (MPar core out) | MFail out _ => k (MPar core out) end.
  Definition take_or_failM (core : mnode) (m : M mupd) (k : mparser -> PM) : PM :=
    let! r := m in match r with MDone out => k (MPar core out) | MFail out e => ret (MPar core out, Some e) end.

  (** [x, err := r; if err != nil { return err }] for [r] that reads memory only *)
  Definition mp_bind {A} (p : mparser) (r : res A) (k : A -> PM) : PM :=
    match r with Ok a => k a | Err e => ret (p, Some e) | Panic => panic end.

  (** parse_set.go:9-51 [Parser.Set]: the node holds the slice given *)
  Definition P_SetM (p : mparser) (newVal : bsl) (path : list bytes) : PM :=
    match path with
    | [] => ret (p, Some ENullPath)
    | _ =>
        let! h := ask in
        mp_bind p (m_walk h (mp_core p) path) (fun _ =>
        let! t := look newVal in
        let go f := take_textM (m_upd_node h path f (mp_core p)) (SetM grow (mp_json p) newVal path) (refreshM (tl (ancestors path))) in
        if (2 <=? length t)%nat && opens t then
          let! down := pCoreM newVal in go (fun n => MNode (m_label n) newVal down)
        else go (m_with_value newVal))
    end.

  Definition m_has_label (h : mem) (x : bytes) (ns : list mnode) : bool := match m_find h x ns with Some _ => true | None => false end.

  (** parse_set.go:87-117 [Parser.SetKey] *)
  Definition P_SetKeyM (p : mparser) (newKey : bytes) (path : list bytes) : PM :=
    match path with
    | [] => ret (p, Some ENullPath)
    | _ =>
        match newKey with
        | [] => ret (p, Some ENullKey)
        | _ =>
            let! h := ask in
            mp_bind p (m_walk h (mp_core p) path) (fun _ =>
            let! up := eval (m_walk h (mp_core p) (removelast path)) in
            if m_has_label h newKey (m_down up) then ret (p, Some (EKeyAlreadyExist newKey))
            else
              take_textM (m_upd_node h path (m_with_label (Own newKey)) (mp_core p)) (SetKeyM grow (mp_json p) newKey path)
                (refresh_quietM (tl (ancestors path))))
        end
    end.

  (** parse_utils.go:100-108 [deAttach] *)
  Definition m_drop_label (h : mem) (x : bytes) (n : mnode) : mnode :=
    m_with_down (filter (fun d => negb (bytes_eqb (label_text h (m_label d)) x)) (m_down n)) n.

  (** parse_delete.go:6-30 [Parser.Delete] *)
  Definition P_DeleteM (p : mparser) (path : list bytes) : PM :=
    match path with
    | [] => ret (p, Some ENullPath)
    | _ =>
        let! h := ask in
        mp_bind p (m_walk h (mp_core p) path) (fun n =>
        take_or_failM (m_upd_node h (removelast path) (m_drop_label h (label_text h (m_label n))) (mp_core p))
          (DeleteM grow (mp_json p) path) (refreshM (tl (ancestors path))))
    end.

  (** [p.json = replace(p.json, new, len(p.json)-1, len(p.json)-1)] *)
  Definition put_before_endM (core : mnode) (json new : bsl) : PM :=
    let! out := replaceM grow json new (pred (b_len json)) (pred (b_len json)) in ret (MPar core out, None).

  (** The container nested in a new value, if it is one: its children *)
  Definition nestedM (is : bool) (newVal : bsl) (k : option (list mnode) -> PM) : PM :=
    if is then let! d := pCoreM newVal in k (Some d) else k None.

  Definition kids (o : option (list mnode)) : list mnode := match o with Some d => d | None => [] end.

  (** parse_add.go:10-114 [Parser.AddKeyValue]; newVal is not nil *)
  Definition P_AddKeyValueM (p : mparser) (key : bytes) (newVal : bsl) (path : list bytes) : PM :=
    match key with
    | [] => ret (p, Some ENullKey)
    | _ =>
        let! g := P_GetM p path in
        match g with
        | inl e => ret (p, Some e)
        | inr json =>
            let! j := look json in
            let! t := look newVal in
            let! h := ask in
            let nested (k : option (list mnode) -> PM) :=
              if (2 <=? length key)%nat then let! c := eval (at_ t 0) in nestedM (is_open c) newVal k else k None in
            match path with
            | [] =>
                if m_has_label h key (m_down (mp_core p)) then ret (p, Some (EKeyAlreadyExist key))
                else if (2 <=? length j)%nat then
                  if (hd 0 j =? 123) && (last j 0 =? 125) then
                    let! newKV := of_string (grow (length key + length t + 4)) (44 :: pair_text key t) in
                    nested (fun o =>
                    let core := m_append_node (MNode (Own key) newVal (kids o)) (mp_core p) in
                    match o with
                    | Some _ => if (b_len (mp_json p) =? 2)%nat then let! rest := sub_from newKV 1 in put_before_endM core (mp_json p) rest
                                else put_before_endM core (mp_json p) newKV
                    | None => put_before_endM core (mp_json p) newKV
                    end)
                  else ret (p, Some EObjectExpected)
                else ret (p, Some (EBadJSON 0))
            | _ =>
                mp_bind p (m_walk h (mp_core p) path) (fun _ =>
                let! up := eval (m_walk h (mp_core p) (removelast path)) in
                if m_has_label h key (m_down up) then ret (p, Some (EKeyAlreadyExist key))
                else if (2 <=? length j)%nat then
                  if (hd 0 j =? 123) && (last j 0 =? 125) then
                    nested (fun o =>
                    take_or_failM (m_upd_node h path (m_append_node (MNode (Own key) newVal (kids o))) (mp_core p))
                      (AddKeyValueM grow (mp_json p) key (Some newVal) path) (refreshM (ancestors path)))
                  else ret (p, Some EObjectExpected)
                else ret (p, Some (EBadJSON 0)))
            end
        end
    end.

  (** parse_add.go:119-220 [Parser.Add] *)
  Definition P_AddM (p : mparser) (newVal : bsl) (path : list bytes) : PM :=
    let! t := look newVal in
    match t with
    | [] => ret (p, Some ENullKey)
    | _ =>
        let! g := P_GetM p path in
        match g with
        | inl e => ret (p, Some e)
        | inr json =>
            let! j := look json in
            let! h := ask in
            let nested := nestedM ((2 <=? length t)%nat && opens t) newVal in
            let new (curr : mnode) (o : option (list mnode)) := MNode (Own (itoa (Z.of_nat (length (m_down curr))))) newVal (kids o) in
            match path with
            | [] =>
                if (2 <=? length j)%nat then
                  if (hd 0 j =? 91) && (last j 0 =? 93) then
                    let! newValue := of_string (grow (length t + 1)) (44 :: t) in
                    nested (fun o =>
                    let core := m_append_node (new (mp_core p) o) (mp_core p) in
                    match o with
                    | Some _ => if (b_len (mp_json p) =? 2)%nat then let! rest := sub_from newValue 1 in put_before_endM core (mp_json p) rest
                                else put_before_endM core (mp_json p) newValue
                    | None => put_before_endM core (mp_json p) newValue
                    end)
                  else ret (p, Some EArrayExpected)
                else ret (p, Some (EBadJSON 0))
            | _ =>
                mp_bind p (m_walk h (mp_core p) path) (fun curr =>
                if (2 <=? length j)%nat then
                  if (hd 0 j =? 91) && (last j 0 =? 93) then
                    nested (fun o =>
                    take_or_failM (m_upd_node h path (m_append_node (new curr o)) (mp_core p)) (AddM grow (mp_json p) newVal path)
                      (refreshM (match o with Some _ => removelast (ancestors path) | None => ancestors path end)))
                  else ret (p, Some EArrayExpected)
                else ret (p, Some (EBadJSON 0)))
            end
        end
    end.

  (** parse_utils.go:84-98 [insert] *)
  Fixpoint m_relabel (ns : list mnode) (i : nat) (index : Z) : list mnode :=
    match ns with
    | [] => []
    | n :: r => (if (index <=? Z.of_nat i)%Z then m_with_label (Own (itoa (Z.of_nat i + 1))) n else n) :: m_relabel r (S i) index
    end.
  Definition m_insert (ns : list mnode) (index : Z) : res (list mnode) :=
    match ns with
    | [] => Err EIndexOutOfRange
    | _ => if (Z.of_nat (length ns) - 1 <? index)%Z then Err EIndexOutOfRange
           else if (index <? 0)%Z then Panic else Ok (m_relabel ns 0 index)
    end.

  (** parse_add.go:225-339 [Parser.Insert] *)
  Definition P_InsertM (p : mparser) (newIndex : Z) (newVal : bsl) (path : list bytes) : PM :=
    let! t := look newVal in
    match t with
    | [] => ret (p, Some ENullKey)
    | _ =>
        let! g := P_GetM p path in
        match g with
        | inl e => ret (p, Some e)
        | inr json =>
            let! j := look json in
            let! h := ask in
            let nested := nestedM ((2 <=? length t)%nat && opens t) newVal in
            let lbl := Own (itoa newIndex) in
            match path with
            | [] =>
                if (2 <=? length j)%nat then
                  if (hd 0 j =? 91) && (last j 0 =? 93) then
                    nested (fun o =>
                    mp_bind p (m_insert (m_down (mp_core p)) newIndex) (fun ns =>
                    match o with
                    | Some d =>
                        take_or_failM (m_with_down ns (mp_core p)) (InsertM grow (mp_json p) newIndex newVal path) (fun p =>
                        mp_bind p (m_insert (m_down (mp_core p)) newIndex) (fun ns =>
                        ret (MPar (m_append_node (MNode lbl nil_ d) (m_with_down ns (mp_core p))) (mp_json p), None)))
                    | None =>
                        take_or_failM (m_append_node (MNode lbl newVal []) (m_with_down ns (mp_core p)))
                          (InsertM grow (mp_json p) newIndex newVal path) (fun p =>
                        mp_bind p (m_insert (m_down (mp_core p)) newIndex) (fun ns =>
                        ret (MPar (m_with_down (removelast ns ++ [MNode lbl newVal []]) (mp_core p)) (mp_json p), None)))
                    end))
                  else ret (p, Some EArrayExpected)
                else ret (p, Some (EBadJSON 0))
            | _ =>
                mp_bind p (m_walk h (mp_core p) path) (fun curr =>
                if (2 <=? length j)%nat then
                  if (hd 0 j =? 91) && (last j 0 =? 93) then
                    nested (fun o =>
                    mp_bind p (m_insert (m_down curr) newIndex) (fun ns =>
                    take_or_failM (m_upd_node h path (fun n => m_append_node (MNode lbl newVal (kids o)) (m_with_down ns n)) (mp_core p))
                      (InsertM grow (mp_json p) newIndex newVal path) (refreshM (ancestors path))))
                  else ret (p, Some EArrayExpected)
                else ret (p, Some (EBadJSON 0)))
            end
        end
    end.
End ParserMem.
