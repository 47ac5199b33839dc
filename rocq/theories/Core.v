(** Model of inter_core.go (the path scanner [core]) and of the parts of utils.go every function
    uses.  Conventions:
    - a loop [for i := a; i < len(json); i++] is a recursive function over the suffix of the text that
      starts at position [i]; [i] itself is carried along, and [json] is the whole text for the
      look-back on quotes;
    - the [isJSONChar] table (inter_core.go:26-32) is inlined: on entry to each scope all seven
      characters are set (every scope restores what it cleared: lines 184, 339-341, 390), so the set of
      characters each loop reacts to is fixed;
    - [level], [innerLevel], [indexCount] never become negative in this function (each decrement is
      guarded by a comparison that returns first), so they are naturals. *)
From Verif Require Export GoStd.

Local Open Scope N_scope.

(** utils.go:16-34 [space] *)
Definition space (c : N) : bool := (c =? 32) || (c =? 9) || (c =? 10) || (c =? 13).

(** utils.go:8-14 [replace]; panics exactly when one of its slice expressions does. *)
Definition replace (json new : bytes) (s e : nat) : res bytes :=
  if (s <=? length json)%nat && (e <=? length json)%nat
  then Ok (firstn s json ++ new ++ skipn e json) else Panic.

(** inter_core.go:34-41 and 400-407: skip blanks from a position, panicking past the end.
    The bounds test inside the Go loop comes after the indexing expression, so it never helps. *)
Fixpoint skip_space (rest : bytes) (i : nat) : res nat :=
  match rest with
  | [] => Panic
  | c :: r => if space c then skip_space r (S i) else Ok i
  end.

(** The escape look-back [for n := i-1; n > -1; n--] (inter_core.go:105-115, 218-228, 294-304,
    427-437).  [p] is the reversed text before the quote: [Some true] when the number of backslashes
    immediately before it is even and is preceded by some other byte, [Some false] when odd, [None]
    when the loop runs off the front. *)
Fixpoint qback (p : bytes) (odd : bool) : option bool :=
  match p with
  | [] => None
  | c :: r => if c =? 92 then qback r (negb odd) else Some (negb odd)
  end.
Definition qscan (json : bytes) (i : nat) : option bool := qback (rev (firstn i json)) false.

(** Loops that toggle [inQuote] on an unescaped quote and do nothing otherwise. *)
Definition toggle (json : bytes) (i : nat) (inq : bool) : bool :=
  match qscan json i with Some true => negb inq | _ => inq end.

Definition is_open (c : N) : bool := (c =? 91) || (c =? 123).
Definition is_close (c : N) : bool := (c =? 93) || (c =? 125).

(** ** Array search, index 0: inter_core.go:62-84.
    [Ok (Some (i, c))]: an open brace [c] at [i].  [Ok None]: the loop ended without one. *)
Fixpoint arr0_loop (rest : bytes) (i : nat) (last : bool) : res (option (nat * N)) :=
  match rest with
  | [] => Ok None
  | c :: r =>
      if space c then arr0_loop r (S i) last
      else if is_open c then Ok (Some (i, c))
      else if last then Ok None else Err EIndexOutOfRange
  end.

(** inter_core.go:131-142: the first non-blank byte after the comma, if any. *)
Fixpoint next_nonspace (rest : bytes) : option N :=
  match rest with
  | [] => None
  | c :: r => if space c then next_nonspace r else Some c
  end.

(** How the array search ends. *)
Inductive arr_out : Type :=
| ALast (off : nat)            (* line 145: last path element, [offset = i + 1] *)
| ABrace (off : nat) (c : N)   (* lines 161-164: next open brace *)
| AEnd.                        (* loop ran to the end of the text after [found] *)

(** ** Array search, index <> 0: inter_core.go:96-182. *)
Fixpoint arr_loop (json rest : bytes) (i : nat) (last : bool) (target : Z)
         (level : nat) (inq found : bool) (cnt : nat) : res arr_out :=
  match rest with
  | [] => if found then Ok AEnd else Err EIndexOutOfRange
  | c :: r =>
      if c =? 34 then arr_loop json r (S i) last target level (toggle json i inq) found cnt
      else if inq then arr_loop json r (S i) last target level inq found cnt
      else if negb found && (level =? 1)%nat && (c =? 44) then
        let cnt' := S cnt in
        if (Z.of_nat cnt' =? target)%Z then
          let bad := match next_nonspace r with
                     | Some d => negb (is_open d) && negb last
                     | None => false
                     end in
          if bad then Err EIndexOutOfRange
          else if last then Ok (ALast (S i))
          else arr_loop json r (S i) last target level inq true cnt'
        else arr_loop json r (S i) last target level inq found cnt'
      else if is_open c then
        if found then Ok (ABrace i c)
        else arr_loop json r (S i) last target (S level) inq found cnt
      else if is_close c then
        if (level <? 2)%nat then Err EIndexOutOfRange
        else arr_loop json r (S i) last target (pred level) inq found cnt
      else arr_loop json r (S i) last target level inq found cnt
  end.

(** ** The jump from a non-matching key to the next comma: inter_core.go:282-337. *)
Inductive jump_out : Type :=
| JComma (j : nat)     (* line 328: [i = j] *)
| JFail                (* line 318: key not found *)
| JEnd (inq : bool).   (* loop ended; [inQuote] keeps its last value, [i] is unchanged *)

Fixpoint jump_loop (json rest : bytes) (j k ilevel : nat) (inq : bool) : jump_out :=
  match rest with
  | [] => JEnd inq
  | c :: r =>
      if c =? 34 then jump_loop json r (S j) k ilevel (toggle json j inq)
      else if inq then jump_loop json r (S j) k ilevel inq
      else if is_open c then jump_loop json r (S j) k (S ilevel) inq
      else if is_close c then
        if (ilevel <? S k)%nat then JFail
        else jump_loop json r (S j) k (pred ilevel) inq
      else if c =? 44 then
        if (ilevel =? S k)%nat then JComma j
        else jump_loop json r (S j) k ilevel inq
      else jump_loop json r (S j) k ilevel inq
  end.

(** State of the outer loop (inter_core.go:16-45). *)
Record cst : Type := CSt { offset : nat; brace : N; cur : bytes; keyst : option nat }.

(** inter_core.go:248-258: does the key [json[start:end]] equal [cur]?  Written with an addition
    because [end - start] is a Go int that may be negative. *)
Definition key_match (json cur : bytes) (start end_ : nat) : bool :=
  (start + length cur =? end_)%nat && bytes_eqb (firstn (length cur) (skipn start json)) cur.

(** ** Key search: inter_core.go:189-388.  [resume] models the assignment [i = j] of the jump: the
    iterations with [i < resume] are the ones the jump skips.  The result is the value of [k] when the
    loop ends (it is advanced inside, line 368) and the outer state. *)
Fixpoint key_loop (json : bytes) (path : list bytes) (rest : bytes) (i resume k : nat) (level : nat)
         (found inq : bool) (start end_ : nat) (st : cst) : res (nat * cst) :=
  match rest with
  | [] => if found then Ok (k, st) else Err (EKeyNotFound (cur st))
  | c :: r =>
      if (i <? resume)%nat then key_loop json path r (S i) resume k level found inq start end_ st
      else if c =? 34 then
        if found then key_loop json path r (S i) resume k level found inq start end_ st
        else if negb (level =? S k)%nat then
          key_loop json path r (S i) resume k level found inq start end_ st
        else match qscan json i with
             | Some false => key_loop json path r (S i) resume k level found inq start end_ st
             | q =>
                 let inq' := match q with Some true => negb inq | _ => inq end in
                 if inq' then key_loop json path r (S i) resume k level found inq' (S i) end_ st
                 else key_loop json path r (S i) resume k level found inq' start i st
             end
      else if inq then key_loop json path r (S i) resume k level found inq start end_ st
      else if (level =? S k)%nat && (c =? 58) then
        if key_match json (cur st) start end_ then
          if (S k =? length path)%nat then
            Ok (k, CSt (S i) (brace st) (cur st) (Some start))
          else key_loop json path r (S i) resume k level true inq start end_
                        (CSt (S i) (brace st) (cur st) (keyst st))
        else match jump_loop json r (S i) k level inq with
             | JComma j => key_loop json path r (S i) (S j) k level found inq start end_ st
             | JFail => Err (EKeyNotFound (cur st))
             | JEnd inq' => key_loop json path r (S i) resume k level found inq' start end_ st
             end
      else if c =? 91 then
        if found then
          match nth_error path (S k) with
          | Some p => Ok (k, CSt i 91 p (keyst st))
          | None => Panic
          end
        else key_loop json path r (S i) resume k (S level) found inq start end_ st
      else if c =? 123 then
        if found then
          match nth_error path (S k) with
          | Some p => key_loop json path r (S i) resume (S k) (S level) false inq start end_
                               (CSt (offset st) (brace st) p (keyst st))
          | None => Panic
          end
        else key_loop json path r (S i) resume k (S level) found inq start end_ st
      else if is_close c then
        if (level <? S k)%nat then Err (EKeyNotFound (cur st))
        else key_loop json path r (S i) resume k (pred level) found inq start end_ st
      else key_loop json path r (S i) resume k level found inq start end_ st
  end.

(** ** One turn of the outer loop in an array: inter_core.go:49-185. *)
Definition arr_step (json : bytes) (path : list bytes) (k : nat) (st : cst) : res cst :=
  let last := (S k =? length path)%nat in
  match atoi (cur st) with
  | None => Err EIndexExpected
  | Some idx =>
      if (idx =? 0)%Z then
        let off := S (offset st) in
        do o <- arr0_loop (skipn off json) off last;
        match o with
        | Some (i, c) =>
            if last then Ok (CSt i c (cur st) (keyst st))
            else match nth_error path (S k) with
                 | Some p => Ok (CSt i c p (keyst st))
                 | None => Panic
                 end
        | None => Ok (CSt off (brace st) (cur st) (keyst st))
        end
      else
        do o <- arr_loop json (skipn (offset st) json) (offset st) last idx 0 false false 0;
        match o with
        | ALast off => Ok (CSt off (brace st) (cur st) (keyst st))
        | ABrace i c =>
            match nth_error path (S k) with
            | Some p => Ok (CSt i c p (keyst st))
            | None => Panic
            end
        | AEnd => Ok st
        end
  end.

(** ** The outer loop over the path: inter_core.go:47-393.  [todo] is the rest of the path from [k];
    turns with [k < resume] are those the key search consumed by advancing [k]. *)
Fixpoint outer (json : bytes) (path todo : list bytes) (k resume : nat) (st : cst) : res cst :=
  match todo with
  | [] => Ok st
  | _ :: todo' =>
      if (k <? resume)%nat then outer json path todo' (S k) resume st
      else if brace st =? 91 then
        do st' <- arr_step json path k st;
        outer json path todo' (S k) resume st'
      else
        do '(k', st') <- key_loop json path (skipn (offset st) json) (offset st) 0 k k
                                  false false 0 0 st;
        outer json path todo' (S k) (S k') st'
  end.

(** ** The end of the value: inter_core.go:412-489. *)

(** Braced value, lines 414-456: position after the matching close brace. *)
Fixpoint close_loop (json rest : bytes) (i level : nat) (inq : bool) : option nat :=
  match rest with
  | [] => None
  | c :: r =>
      if c =? 34 then close_loop json r (S i) level (toggle json i inq)
      else if inq then close_loop json r (S i) level inq
      else if is_open c then close_loop json r (S i) (S level) inq
      else if is_close c then
        if (level =? 1)%nat then Some (S i) else close_loop json r (S i) (pred level) inq
      else close_loop json r (S i) level inq
  end.

(** String value, lines 460-472: position of the closing quote. *)
Fixpoint quote_loop (rest : bytes) (i : nat) : option nat :=
  match rest with
  | [] => None
  | c :: r =>
      if c =? 92 then match r with [] => None | _ :: r' => quote_loop r' (S (S i)) end
      else if c =? 34 then Some i else quote_loop r (S i)
  end.

(** Other values, lines 474-483. *)
Fixpoint token_loop (rest : bytes) (i : nat) : option nat :=
  match rest with
  | [] => None
  | c :: r => if space c || (c =? 44) || (c =? 93) || (c =? 125) then Some i else token_loop r (S i)
  end.

Definition value_end (json : bytes) (ks : option nat) (off : nat) : res (option nat * nat * nat) :=
  do c <- at_ json off;
  if is_open c then
    match close_loop json (skipn off json) off 0 false with
    | Some e => Ok (ks, off, e)
    | None => Err (EBadJSON off)
    end
  else if c =? 34 then
    match quote_loop (skipn (S off) json) (S off) with
    | Some e => Ok (ks, S off, e)
    | None => Err (EBadJSON off)
    end
  else
    match token_loop (skipn off json) off with
    | Some e => if (e =? off)%nat then Err EEmptyArray else Ok (ks, off, e)
    | None => Err (EBadJSON off)
    end.

(** ** inter_core.go:10-490 [core].  The key start is an option: [None] is Go's -1.  On success with
    [just_start] the third component is 0, as in the source. *)
Definition core (json : bytes) (just_start : bool) (path : list bytes) : res (option nat * nat * nat) :=
  if (length json <? 2)%nat then Err (EBadJSON 0)
  else match path with
       | [] => Panic
       | p0 :: _ =>
           do off <- skip_space json 0;
           do br <- at_ json off;
           do st <- outer json path path 0 0 (CSt off br p0 None);
           if (offset st =? 0)%nat then Err (EBadJSON 0)
           else
             do off' <- skip_space (skipn (offset st) json) (offset st);
             if just_start then Ok (keyst st, off', O)
             else value_end json (keyst st) off'
       end.
