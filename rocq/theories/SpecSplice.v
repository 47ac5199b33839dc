(** Specification for C45: what an update may do to a text that need not be JSON.  Nothing here refers to the model. *)
From Coq Require Import String.
From Verif Require Export GoStd Json.

Local Open Scope N_scope.

(** [out] is [json] with one occurrence of [old] replaced by [new]. *)
Definition spliced (json old new out : bytes) : Prop := exists A C, json = A ++ old ++ C /\ out = A ++ new ++ C.

(** What counts as a value in a text: bracketed text, the inside of a string, or a token up to a delimiter.  [shuts l n]: read
    left to right, with brackets inside quotes passed over and a quote after an odd number of backslashes not counted, [l]
    closes the [n] brackets open before it with its last byte and not earlier. *)
Fixpoint shuts (l : bytes) (level : nat) (inq esc : bool) : bool :=
  match l with
  | [] => false
  | c :: r =>
      if c =? 92 then shuts r level inq (negb esc)
      else if c =? 34 then shuts r level (if esc then inq else negb inq) false
      else if inq then shuts r level inq false
      else if (c =? 91) || (c =? 123) then shuts r (S level) inq false
      else if (c =? 93) || (c =? 125) then
        match level with 1%nat => match r with [] => true | _ => false end | _ => shuts r (pred level) inq false end
      else shuts r level inq false
  end.
Definition bracketed (r : bytes) : Prop := match r with c :: l => In c [91; 123] /\ shuts l 1 false false = true | [] => False end.
Definition delimiter (c : N) : bool := is_ws c || (c =? 44) || (c =? 93) || (c =? 125).
Definition value_in (A r C : bytes) : Prop :=
  bracketed r \/
  ((exists A', A = A' ++ [34]) /\ str_ok r = true /\ exists C', C = 34 :: C') \/
  (r <> [] /\ ~ In (hd 0 r) [34; 91; 123] /\ forallb (fun c => negb (delimiter c)) r = true /\ exists c C', C = c :: C' /\ delimiter c = true).

(** [x] begins the text. *)
Definition begins_with (x json : bytes) : Prop := exists r, json = x ++ r.

(** The text of a pair. *)
Definition pair_of (key value : bytes) : bytes := 34 :: key ++ 34 :: 58 :: value.

Definition in_quotes (A C : bytes) : Prop := exists A' C', A = A' ++ [34] /\ C = 34 :: C'.

(** A value found, with what is around it: the replaced stretch is the value, or the value with its quotes. *)
Definition whole (A r C A' old C' : bytes) : Prop :=
  (A' = A /\ old = r /\ C' = C /\ ~ in_quotes A C) \/ (A = A' ++ [34] /\ old = 34 :: r ++ [34] /\ C = 34 :: C').

(** A value replaced, [get] being the lookup. *)
Definition set_shape (get : bytes -> list bytes -> res bytes) (json : bytes) (path : list bytes) (new out : bytes) : Prop :=
  exists A r C A' old C', json = A ++ r ++ C /\ value_in A r C /\ get json path = Ok r /\ whole A r C A' old C' /\ out = A' ++ new ++ C'.

(** [target get json path o c A m C]: the container at [path] is [o :: m ++ [c]] and stands between [A] and [C]; for the empty
    path it is the whole text without the blanks around it. *)
Definition target (get : bytes -> list bytes -> res bytes) (json : bytes) (path : list bytes) (o c : N) (A m C : bytes) : Prop :=
  json = A ++ (o :: m ++ [c]) ++ C /\
  match path with
  | [] => forallb is_ws A = true /\ forallb is_ws C = true
  | _ => get json path = Ok (o :: m ++ [c])
  end.

(** The container at [path] with [item] put before its closing bracket, after a comma unless it was empty. *)
Definition grown (get : bytes -> list bytes -> res bytes) (json : bytes) (path : list bytes) (o c : N) (item out : bytes) : Prop :=
  exists A m C, target get json path o c A m C /\
    out = A ++ (o :: m ++ (if forallb is_ws m then item else 44 :: item) ++ [c]) ++ C.

(** The text written for a nil value. *)
Definition value_of (value : option bytes) : bytes := match value with None => b "null" | Some v => v end.

(** Bytes that may go with a deleted value. *)
Definition sep (c : N) : bool := is_ws c || (c =? 44) || (c =? 34).
