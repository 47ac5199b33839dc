(** Model of Flatten and Indent (others.go:66-182). *)
From Verif Require Export GoStd Core.

Local Open Scope N_scope.

(** others.go:68-97 [Flatten]; the loop state is [inQuote]. *)
Fixpoint flatten (rest : bytes) (inq : bool) : bytes :=
  match rest with
  | [] => []
  | c :: r =>
      if c =? 92 then match r with [] => [c] | d :: r' => c :: d :: flatten r' inq end
      else if c =? 34 then c :: flatten r (negb inq)
      else if inq then c :: flatten r inq
      else if space c then flatten r inq
      else c :: flatten r inq
  end.
Definition Flatten (json : bytes) : bytes := flatten json false.

(** [append(newJSON, x...)] before the rest of the loop. *)
Definition emit (x : bytes) (r : res bytes) : res bytes := do o <- r; Ok (x ++ o).

(** utils.go:36-42 [createTabs]; [make] panics on a negative length. *)
Definition createTabs (n : Z) : res bytes := if (n <? 0)%Z then Panic else Ok (repeat 9 (Z.to_nat n)).

(** others.go:107-181, the loop of Indent.  [prev] is [json[i-1]], None at [i = 0] where indexing panics. *)
Fixpoint indent_loop (rest : bytes) (prev : option N) (level : Z) (inq : bool) : res bytes :=
  match rest with
  | [] => Ok []
  | c :: r =>
      if c =? 34 then
        match prev with
        | None => Panic
        | Some d => emit [c] (indent_loop r (Some c) level (if d =? 92 then inq else negb inq))
        end
      else if inq then emit [c] (indent_loop r (Some c) level inq)
      else if space c then indent_loop r (Some c) level inq
      else if is_open c then
        do t <- createTabs (level + 1); emit (c :: 10 :: t) (indent_loop r (Some c) (level + 1)%Z inq)
      else if is_close c then
        do t <- createTabs (level - 1); emit (10 :: t ++ [c]) (indent_loop r (Some c) (level - 1)%Z inq)
      else if c =? 44 then
        do t <- createTabs level; emit (c :: 10 :: t) (indent_loop r (Some c) level inq)
      else if c =? 58 then emit [c; 32] (indent_loop r (Some c) level inq)
      else emit [c] (indent_loop r (Some c) level inq)
  end.

(** others.go:102-182 [Indent] *)
Definition Indent (json : bytes) : res bytes := indent_loop (Flatten json) None 0 false.
