(** Model of inter_iter.go, of the listing functions of inter_get.go, of inter_type.go and of the parts
    of others.go and utils.go they use. *)
From Coq Require Import String.
From Verif Require Export GoStd Core Errors Api.

Local Open Scope N_scope.

(** ** Trimming *)

(** utils.go:121-145 [cleanValue].  The first loop drops leading blanks but keeps at least one byte, the
    second drops trailing blanks down to [start]. *)
Fixpoint trim1 (s : bytes) : bytes :=
  match s with
  | c :: ((_ :: _) as r) => if space c then trim1 r else s
  | _ => s
  end.
Definition cleanValue (str : bytes) : res bytes :=
  match str with
  | [] => Ok []
  | _ =>
      let t := rev (trim1 (rev (trim1 str))) in
      if (hd 0 t =? 34) && (last t 0 =? 34) then
        match t with
        | _ :: (_ :: _) as r => Ok (removelast r)
        | _ => Panic                       (* str[start+1 : end] with start = end *)
        end
      else Ok t
  end.

(** utils.go:104-119 [cleanValueString].  Panics on the empty string ([str[0]]). *)
Fixpoint cvs_end (s : bytes) (e : nat) : nat :=
  match e with
  | S (S _ as e') => if space (nth e s 0) then cvs_end s e' else e
  | _ => e
  end.
Definition cleanValueString (s : bytes) : res bytes :=
  match s with
  | [] => Panic
  | _ =>
      let start := (length s - length (trim1 s))%nat in
      let e := cvs_end s (pred (length s)) in
      if (nth start s 0 =? 34) && (nth e s 0 =? 34) then slice s (S start) e
      else slice s start (S e)
  end.

(** ** Where a path points *)

(** inter_get.go:317-332, 407-422, 499-514, inter_iter.go:112-128, inter_type.go:137-152: only the start is needed; blanks skipped at the root. *)
Definition start_of (json : bytes) (path : list bytes) : res nat :=
  match path with
  | [] => skip_space json 0
  | _ => do '(_, s, _) <- core json true path; Ok s
  end.

(** inter_iter.go:18-25: as [skip_space], but a blank at the last position is an error. *)
Fixpoint skip_space_last (rest : bytes) (i : nat) : res nat :=
  match rest with
  | [] => Panic
  | c :: r => if space c then match r with [] => Err (EBadJSON i) | _ => skip_space_last r (S i) end else Ok i
  end.

(** [json[end]] counted back over blanks (utils.go:173-180, inter_type.go:102-108): index of the last non-blank byte.  The test
    in the Go loop cannot succeed because [json[start]] is not blank. *)
Definition last_nonspace (json : bytes) : nat := pred (length (rev (trim1 (rev json)))).

(** utils.go:151-183 [getStartEnd] *)
Definition getStartEnd (json : bytes) (path : list bytes) : res (nat * nat) :=
  if (length json <? 2)%nat then Err (EBadJSON 0)
  else match path with
       | [] => do s <- skip_space json 0; Ok (s, last_nonspace json)
       | _ => do '(_, s, e) <- core json false path; Ok (s, e)
       end.

(** ** Iteration *)

(** Result of an iteration: the callback's state and the returned error, or a panic. *)
Inductive itres (St : Type) : Type :=
| IDone (s : St) (e : option err)
| IPanic.
Arguments IDone {St}. Arguments IPanic {St}.

(** [x, err := r; if err != nil { return err }; k] *)
Definition ibind {A St : Type} (s : St) (r : res A) (k : A -> itres St) : itres St :=
  match r with Ok a => k a | Err e => IDone s (Some e) | Panic => IPanic end.

(** inter_iter.go:49-65: the escape look-back of IterateArray stops at index 1: [for k := i - 1; k > 0; k--]. *)
Definition closes1 (json : bytes) (i : nat) : bool :=
  match qback (rev (skipn 1 (firstn i json))) false with Some true => true | _ => false end.

Section Iter.
  Context {St : Type}.

  (** inter_iter.go:41-102, the loop of IterateArray.  [lv] is [level + 1]: the Go variable may drop to -1
      but not below (lines 75-77).  [closes i]: the quote at [i] ends the string. *)
  Fixpoint iter_arr (json : bytes) (closes : nat -> bool) (cb : St -> bytes -> St * (bool * option err)) (rest : bytes)
           (i start lv : nat) (inq : bool) (s : St) : itres St :=
    match rest with
    | [] => IDone s (Some (EBadJSON start))
    | c :: r =>
        if c =? 34 then iter_arr json closes cb r (S i) start lv (if inq then negb (closes i) else true) s
        else if inq then iter_arr json closes cb r (S i) start lv inq s
        else if is_open c then iter_arr json closes cb r (S i) start (S lv) inq s
        else if is_close c then
          if (lv =? 0)%nat then IDone s None
          else if (c =? 93) && (lv =? 1)%nat then
            ibind s (slice json start i) (fun v =>
            ibind s (cleanValue v) (fun v =>
            let '(s', (_, e)) := cb s v in IDone s' e))
          else iter_arr json closes cb r (S i) start (pred lv) inq s
        else if (lv =? 1)%nat && (c =? 44) then
          ibind s (slice json start i) (fun v =>
          ibind s (cleanValue v) (fun v =>
          let '(s', (go, e)) := cb s v in
          match e with
          | Some e => IDone s' (Some e)
          | None => if go : bool then iter_arr json closes cb r (S i) (S i) lv inq s' else IDone s' None
          end))
        else iter_arr json closes cb r (S i) start lv inq s
    end.

  (** inter_iter.go:6-103 [IterateArray] *)
  Definition IterateArray (json : bytes) (cb : St -> bytes -> St * (bool * option err)) (path : list bytes)
             (s : St) : itres St :=
    if (length json <? 2)%nat then IDone s (Some (EBadJSON 0))
    else if (length json =? 2)%nat then
      if bytes_eqb json (b "[]") then IDone s None else IDone s (Some (EBadJSON 0))
    else
      ibind s (match path with
               | [] => skip_space_last json 0
               | _ => do '(_, st, _) <- core json true path; Ok st
               end) (fun start =>
      ibind s (at_ json start) (fun c =>
      if c =? 91 then iter_arr json (closes1 json) cb (skipn (S start) json) (S start) (S start) 1 false s
      else IDone s (Some EArrayExpected))).

  (** inter_iter.go:179-184, 208-213: [for j := start; j < i; j++ { if !space(json[j]) { start = j; break } }] *)
  Definition fwd_trim (json : bytes) (start i : nat) : nat :=
    match find (fun j => negb (space (nth j json 0))) (seq start (i - start)) with Some j => j | None => start end.
  (** inter_iter.go:185-190 ([lo = start]), 214-219 ([lo = start + 1]): [for j := i - 1; j >= lo; j-- { if !space(json[j]) { end = j; break } }] *)
  Definition back_trim (json : bytes) (lo i end_ : nat) : nat :=
    match find (fun j => negb (space (nth j json 0))) (rev (seq lo (i - lo))) with Some j => j | None => end_ end.

  (** inter_iter.go:191-195, 220-229: [json[start] == 34 && json[end] == 34], then the value without or with those bytes. *)
  Definition kv_value (json : bytes) (start end_ : nat) : res bytes :=
    do c <- at_ json start;
    if c =? 34 then
      do d <- at_ json end_;
      if d =? 34 then slice json (S start) end_ else slice json start (S end_)
    else slice json start (S end_).

  (** inter_iter.go:135-247, the loop of IterateKeyValue.  [level] is at least 1 after the first byte. *)
  Fixpoint iter_kv (json : bytes) (cb : St -> bytes -> bytes -> St * (bool * option err)) (rest : bytes)
           (i start end_ level ks ke : nat) (inq : bool) (key : bytes) (s : St) : itres St :=
    match rest with
    | [] => IDone s None
    | c :: r =>
        if c =? 34 then
          if inq then
            match qscan json i with
            | Some true => iter_kv json cb r (S i) start end_ level ks i false key s
            | Some false => iter_kv json cb r (S i) start end_ level ks ke inq key s
            | None => iter_kv json cb r (S i) start end_ level i ke inq key s
            end
          else iter_kv json cb r (S i) start end_ level i ke true key s
        else if inq then iter_kv json cb r (S i) start end_ level ks ke inq key s
        else if is_open c then iter_kv json cb r (S i) start end_ (S level) ks ke inq key s
        else if is_close c then
          if (c =? 125) && (level =? 1)%nat then
            let start := fwd_trim json start i in
            let end_ := back_trim json start i end_ in
            ibind s (kv_value json start end_) (fun v => IDone (fst (cb s key v)) None)
          else if (level =? 1)%nat then IDone s None
          else iter_kv json cb r (S i) start end_ (pred level) ks ke inq key s
        else if (level =? 1)%nat && (c =? 44) then
          let start := fwd_trim json start i in
          let end_ := back_trim json (S start) i (pred i) in
          ibind s (kv_value json start end_) (fun v =>
          let '(s', (go, e)) := cb s key v in
          match e with
          | Some e => IDone s' (Some e)
          | None => if go : bool then iter_kv json cb r (S i) start end_ level ks ke inq key s' else IDone s' None
          end)
        else if (level =? 1)%nat && (c =? 58) then
          ibind s (slice json (S ks) ke) (fun key =>
          iter_kv json cb r (S i) (S i) end_ level ks ke inq key s)
        else iter_kv json cb r (S i) start end_ level ks ke inq key s
    end.

  (** inter_iter.go:108-250 [IterateKeyValue] *)
  Definition IterateKeyValue (json : bytes) (cb : St -> bytes -> bytes -> St * (bool * option err))
             (path : list bytes) (s : St) : itres St :=
    if bytes_eqb json (b "{}") then IDone s (Some EEmpty)
    else
      ibind s (start_of json path) (fun start =>
      ibind s (at_ json start) (fun c =>
      if c =? 123 then iter_kv json cb (skipn start json) start start 0 0 0 0 false [] s
      else IDone s (Some EObjectExpected))).
End Iter.

(** ** Keys and values *)

(** inter_get.go:339-395, the loop of GetKeys *)
Fixpoint keys_loop (json rest : bytes) (i level ks ke : nat) (inq : bool) : res (list bytes) :=
  match rest with
  | [] => Ok []
  | c :: r =>
      if c =? 34 then
        if inq then
          match qscan json i with
          | Some true => keys_loop json r (S i) level ks i false
          | Some false => keys_loop json r (S i) level ks ke inq
          | None => keys_loop json r (S i) level i ke inq
          end
        else keys_loop json r (S i) level i ke true
      else if inq then keys_loop json r (S i) level ks ke inq
      else if is_open c then keys_loop json r (S i) (S level) ks ke inq
      else if is_close c then
        if (level =? 1)%nat then Ok [] else keys_loop json r (S i) (pred level) ks ke inq
      else if (c =? 58) && (level =? 1)%nat then
        do k <- slice json (S ks) ke;
        do l <- keys_loop json r (S i) level ks ke inq;
        Ok (k :: l)
      else keys_loop json r (S i) level ks ke inq
  end.

(** inter_get.go:312-398 [GetKeys] *)
Definition GetKeys (json : bytes) (path : list bytes) : res (list bytes) :=
  if bytes_eqb json (b "{}") then Err EEmpty
  else
    do start <- start_of json path;
    do c <- at_ json start;
    if c =? 123 then keys_loop json (skipn start json) start 0 0 0 false else Err EObjectExpected.

(** inter_get.go:429-486, the loop of GetValues *)
Fixpoint values_loop (json rest : bytes) (i start level : nat) (inq : bool) : res (list bytes) :=
  match rest with
  | [] => Ok []
  | c :: r =>
      if c =? 34 then
        values_loop json r (S i) start level
          (if inq then match qscan json i with Some true => false | _ => true end else true)
      else if inq then values_loop json r (S i) start level inq
      else if is_open c then values_loop json r (S i) start (S level) inq
      else if is_close c then
        if (level =? 1)%nat then
          do v <- slice json start i; do v <- cleanValueString v; Ok [v]
        else values_loop json r (S i) start (pred level) inq
      else if c =? 58 then
        values_loop json r (S i) (if (level =? 1)%nat then S i else start)%nat level inq
      else if (c =? 44) && (level =? 1)%nat then
        do v <- slice json start i; do v <- cleanValueString v;
        do l <- values_loop json r (S i) (S i) level inq; Ok (v :: l)
      else values_loop json r (S i) start level inq
  end.

(** inter_get.go:402-489 [GetValues] *)
Definition GetValues (json : bytes) (path : list bytes) : res (list bytes) :=
  if bytes_eqb json (b "{}") then Err EEmpty
  else
    do start <- start_of json path;
    do c <- at_ json start;
    if c =? 123 then values_loop json (skipn start json) start start 0 false else Err EObjectExpected.

(** inter_get.go:521-587, the loop of GetKeysValues *)
Fixpoint kvs_loop (json rest : bytes) (i start level ks ke : nat) (inq : bool) : res (list bytes * list bytes) :=
  match rest with
  | [] => Ok ([], [])
  | c :: r =>
      if c =? 34 then
        if inq then
          match qscan json i with
          | Some true => kvs_loop json r (S i) start level ks i false
          | Some false => kvs_loop json r (S i) start level ks ke inq
          | None => kvs_loop json r (S i) start level i ke inq
          end
        else kvs_loop json r (S i) start level i ke true
      else if inq then kvs_loop json r (S i) start level ks ke inq
      else if is_open c then kvs_loop json r (S i) start (S level) ks ke inq
      else if is_close c then
        if (level =? 1)%nat then
          do v <- slice json start i; do v <- cleanValueString v; Ok ([], [v])
        else kvs_loop json r (S i) start (pred level) ks ke inq
      else if c =? 58 then
        if (level =? 1)%nat then
          do k <- slice json (S ks) ke;
          do '(l, vs) <- kvs_loop json r (S i) (S i) level ks ke inq;
          Ok (k :: l, vs)
        else kvs_loop json r (S i) start level ks ke inq
      else if (c =? 44) && (level =? 1)%nat then
        do v <- slice json start i; do v <- cleanValueString v;
        do '(l, vs) <- kvs_loop json r (S i) (S i) level ks ke inq;
        Ok (l, v :: vs)
      else kvs_loop json r (S i) start level ks ke inq
  end.

(** inter_get.go:493-590 [GetKeysValues] *)
Definition GetKeysValues (json : bytes) (path : list bytes) : res (list bytes * list bytes) :=
  if bytes_eqb json (b "{}") then Err EEmpty
  else
    do start <- start_of json path;
    do c <- at_ json start;
    if c =? 123 then kvs_loop json (skipn start json) start start 0 0 0 false else Err EObjectExpected.

(** ** Maps: a Go map[string]string as an association list; assignment replaces or adds. *)
Definition gomap := list (bytes * bytes).
Fixpoint map_put (k v : bytes) (m : gomap) : gomap :=
  match m with
  | [] => [(k, v)]
  | (k', v') :: r => if bytes_eqb k' k then (k', v) :: r else (k', v') :: map_put k v r
  end.

(** inter_get.go:593-625 [GetMap]; the nil map is [None]. *)
Definition GetMap (json : bytes) (path : list bytes) : res (option gomap) :=
  if bytes_eqb json (b "[]") || bytes_eqb json (b "{}") then Ok None
  else
    do '(start, end_) <- getStartEnd json path;
    do c <- at_ json start;
    let fin {St} (f : St -> gomap) (r : itres St) : res (option gomap) :=
      match r with
      | IDone s None => Ok (Some (f s))
      | IDone _ (Some e) => Err e
      | IPanic => Panic
      end in
    let arr (_ : unit) : res (option gomap) :=
      if c =? 91 then
        do d <- at_ json end_;
        if d =? 93 then
          fin fst (IterateArray json (fun '(m, n) v => ((map_put (itoa (Z.of_nat n)) v m, S n), (true, None))) path ([], O))
        else Err (EBadJSON start)
      else Err (EBadJSON start) in
    if c =? 123 then
      do d <- at_ json end_;
      if d =? 125 then fin (fun m => m) (IterateKeyValue json (fun m k v => (map_put k v m, (true, None))) path [])
      else arr tt
    else arr tt.

(** inter_get.go:629-641 [GetAll] ([append(path, k)] is modelled in Alias.v) *)
Fixpoint GetAll (json : bytes) (keys : list bytes) (path : list bytes) : res (list bytes) :=
  match keys with
  | [] => Ok []
  | k :: r => do v <- GetString json (path ++ [k]); do l <- GetAll json r path; Ok (v :: l)
  end.

(** inter_get.go:645-657 [GetAllMap] *)
Fixpoint get_all_map (json : bytes) (keys : list bytes) (path : list bytes) (m : gomap) : res gomap :=
  match keys with
  | [] => Ok m
  | k :: r => do v <- GetString json (path ++ [k]); get_all_map json r path (map_put k v m)
  end.
Definition GetAllMap (json : bytes) (keys path : list bytes) : res gomap := get_all_map json keys path [].

(** ** Types: inter_type.go *)

(** inter_type.go:133-165 [typeControlCore]; the start position matters only when there is no error. *)
Definition typeControlCore (json control : bytes) (equal : bool) (path : list bytes) : res (bool * nat) :=
  match json with
  | [] => Err (EBadJSON 0)
  | _ =>
      do start <- start_of json path;
      do c <- (match control with [] => Ok 0 | _ => at_ json start end);
      if existsb (N.eqb c) control then Ok (equal, start) else Ok (negb equal, start)
  end.

(** inter_type.go:17-23, 28-34, 39-45 *)
Definition IsObject (json : bytes) (path : list bytes) : res bool :=
  do '(st, _) <- typeControlCore json [91; 123] true path; Ok st.
Definition IsArray (json : bytes) (path : list bytes) : res bool :=
  do '(st, _) <- typeControlCore json [91] true path; Ok st.
Definition IsValue (json : bytes) (path : list bytes) : res bool :=
  do '(st, _) <- typeControlCore json [91; 123] false path; Ok st.

Inductive jtype : Type := TArray | TObject | TString | TBoolean | TNull | TNumber.

(** inter_type.go:49-81 [GetType].  [pf] tells which strings strconv.ParseFloat accepts. *)
Definition GetType (pf : bytes -> bool) (json : bytes) (path : list bytes) : res jtype :=
  do '(_, start) <- typeControlCore json [] false path;
  do c <- at_ json start;
  if c =? 91 then Ok TArray
  else if c =? 123 then Ok TObject
  else if c =? 34 then Ok TString
  else
    do val <- GetString json path;
    if bytes_eqb val (b "true") || bytes_eqb val (b "false") then Ok TBoolean
    else if bytes_eqb val (b "null") then Ok TNull
    else match parse_int 64 val with
         | Some _ => Ok TNumber
         | None => if pf val then Ok TNumber else Ok TString
         end.

(** inter_type.go:87-131 [IsEmpty] *)
Definition IsEmpty (json : bytes) (path : list bytes) : res bool :=
  match json with
  | [] => Err (EBadJSON 0)
  | _ =>
      do '(start, end_) <-
        (match path with
         | [] => do s <- skip_space json 0; Ok (s, last_nonspace json)
         | _ => do '(_, s, e) <- core json false path; Ok (s, pred e)
         end);
      do c <- at_ json start;
      do d <- at_ json end_;
      if is_open c then
        if c + 2 =? d then Ok (forallb space (firstn (pred end_ - S start) (skipn (S start) json)))
        else Err (EBadJSON end_)
      else Err EObjectExpected
  end.

(** ** Length: others.go:5-64; this is the loop of lines 13-54 *)
Fixpoint length_loop (json rest : bytes) (i : nat) (level : Z) (inq : bool) : nat :=
  match rest with
  | [] => 0%nat
  | c :: r =>
      if c =? 34 then length_loop json r (S i) level (toggle json i inq)
      else if inq then length_loop json r (S i) level inq
      else if is_open c then length_loop json r (S i) (level + 1)%Z inq
      else if is_close c then length_loop json r (S i) (level - 1)%Z inq
      else if (c =? 44) && (level =? 1)%Z then S (length_loop json r (S i) level inq)
      else length_loop json r (S i) level inq
  end.

(** others.go:5-64 [Length] *)
Definition Length (json : bytes) (path : list bytes) : res nat :=
  if bytes_eqb json (b "[]") || bytes_eqb json (b "{}") then Ok 0%nat
  else
    do '(start, end_) <- getStartEnd json path;
    match length_loop json (firstn (end_ - start) (skipn start json)) start 0 false with
    | O => if forallb space (firstn (pred end_ - S start) (skipn (S start) json)) then Ok 0%nat else Ok 1%nat
    | S n => Ok (S (S n))
    end.

(** ** Splitting an array: others.go:185-238 [ParseArray] and the same loop in inter_get.go:116-163
    (GetIntArray), 182-229 (GetFloatArray), 248-305 (GetBoolArray).  [mid] and [fin] say what is done with
    an element text before a comma and before the closing bracket. *)
Fixpoint split_loop {A : Type} (mid fin : bytes -> res A) (arr rest : bytes) (i start : nat) (level : Z)
         (inq : bool) : res (list A) :=
  match rest with
  | [] => Ok []
  | c :: r =>
      if c =? 92 then
        match r with [] => Ok [] | _ :: r' => split_loop mid fin arr r' (i + 2) start level inq end
      else if c =? 34 then split_loop mid fin arr r (S i) start level (negb inq)
      else if inq then split_loop mid fin arr r (S i) start level inq
      else
        let level := if is_open c then (level + 1)%Z else if is_close c then (level - 1)%Z else level in
        if (c =? 93) && (level =? 0)%Z then
          do v <- slice arr start i; do a <- fin v; Ok [a]
        else if (level =? 1)%Z && (c =? 44) then
          do v <- slice arr start i; do a <- mid v;
          do l <- split_loop mid fin arr r (S i) (S i) level inq; Ok (a :: l)
        else split_loop mid fin arr r (S i) start level inq
  end.

(** others.go:189, inter_get.go:92, 114, 180, 246: first byte 91 and last byte 93. *)
Definition bracketed (val : bytes) : bool := (hd 0 val =? 91) && (last val 0 =? 93).

(** others.go:185-238 [ParseArray]; nil is [None]. *)
Definition ParseArray (arr : bytes) : res (option (list bytes)) :=
  if (length arr <? 2)%nat then Ok (Some [])
  else if bracketed arr then
    if (length arr =? 2)%nat then Ok (Some [])
    else do l <- split_loop cleanValueString cleanValueString arr arr 0 1 0 false; Ok (Some l)
  else Ok None.

(** inter_get.go:83-100 [GetStringArray] *)
Definition GetStringArray (json : bytes) (path : list bytes) : res (list bytes) :=
  do val <- GetString json path;
  if (length val <? 2)%nat then Err (EStringArrayParse val)
  else if bracketed val then
    do o <- ParseArray val;
    match o with Some l => Ok l | None => Err (EStringArrayParse val) end
  else Err (EStringArrayParse val).

(** inter_get.go:105-166 [GetIntArray] *)
Definition int_elem (v : bytes) : res Z :=
  do t <- cleanValueString v;
  match atoi t with Some z => Ok z | None => Err (EIntegerParse t) end.
Definition GetIntArray (json : bytes) (path : list bytes) : res (list Z) :=
  do val <- GetString json path;
  if (length val <? 2)%nat then Err (EIntegerArrayParse val)
  else if bracketed val then split_loop int_elem int_elem val val 0 1 0 false
  else Err (EIntegerArrayParse val).

(** inter_get.go:51-61 [GetFloat]; [pf] is strconv.ParseFloat. *)
Definition GetFloat {F : Type} (pf : bytes -> option F) (json : bytes) (path : list bytes) : res F :=
  do val <- GetString json path;
  match pf val with Some z => Ok z | None => Err (EFloatParse val) end.

(** inter_get.go:171-232 [GetFloatArray]; [pf] is strconv.ParseFloat. *)
Definition float_elem {F : Type} (pf : bytes -> option F) (v : bytes) : res F :=
  do t <- cleanValueString v;
  match pf t with Some z => Ok z | None => Err (EFloatParse t) end.
Definition GetFloatArray {F : Type} (pf : bytes -> option F) (json : bytes) (path : list bytes) : res (list F) :=
  do val <- GetString json path;
  if (length val <? 2)%nat then Err (EFloatArrayParse val)
  else if bracketed val then split_loop (float_elem pf) (float_elem pf) val val 0 1 0 false
  else Err (EFloatArrayParse val).

(** inter_get.go:237-308 [GetBoolArray]; the last element is cleaned once more for the message. *)
Definition bool_mid (v : bytes) : res bool :=
  do t <- cleanValueString v;
  if bytes_eqb t (b "true") then Ok true else if bytes_eqb t (b "false") then Ok false else Err (EBoolParse t).
Definition bool_fin (v : bytes) : res bool :=
  do t <- cleanValueString v;
  if bytes_eqb t (b "true") then Ok true else if bytes_eqb t (b "false") then Ok false
  else do t <- cleanValueString t; Err (EBoolParse t).
Definition GetBoolArray (json : bytes) (path : list bytes) : res (list bool) :=
  do val <- GetString json path;
  if (length val <? 2)%nat then Err (EBoolArrayParse val)
  else if bracketed val then split_loop bool_mid bool_fin val val 0 1 0 false
  else Err (EBoolArrayParse val).
