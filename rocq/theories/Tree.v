(** Model of Parser.Tree and Parser.TreeFull (parse_utils.go:134-172) and of the parts of fmt and unicode/utf8 they use. *)
From Coq Require Import String.
From Verif Require Import GoStd Parser.

Local Open Scope N_scope.

(** ** utf8.RuneCountInString: a byte that does not begin a well-formed sequence counts as one rune.
    [first_byte c] gives the length of the sequence [c] begins and the range of its second byte (unicode/utf8: the
    tables first and acceptRanges). *)
Definition first_byte (c : N) : option (nat * N * N) :=
  if c <? 128 then Some (1%nat, 128, 191)
  else if c <? 194 then None
  else if c <? 224 then Some (2%nat, 128, 191)
  else if c =? 224 then Some (3%nat, 160, 191)
  else if c =? 237 then Some (3%nat, 128, 159)
  else if c <? 240 then Some (3%nat, 128, 191)
  else if c =? 240 then Some (4%nat, 144, 191)
  else if c <? 244 then Some (4%nat, 128, 191)
  else if c =? 244 then Some (4%nat, 128, 143)
  else None.
Definition between (lo c hi : N) : bool := (lo <=? c) && (c <=? hi).
Definition rune_len (t : bytes) : nat :=
  match t with
  | [] => O
  | c :: r =>
      match first_byte c, r with
      | Some (2%nat, lo, hi), c1 :: _ => if between lo c1 hi then 2%nat else 1%nat
      | Some (3%nat, lo, hi), c1 :: c2 :: _ => if between lo c1 hi && between 128 c2 191 then 3%nat else 1%nat
      | Some (4%nat, lo, hi), c1 :: c2 :: c3 :: _ =>
          if between lo c1 hi && between 128 c2 191 && between 128 c3 191 then 4%nat else 1%nat
      | _, _ => 1%nat
      end
  end.
Fixpoint rune_count (fuel : nat) (t : bytes) : nat :=
  match fuel, t with
  | S f, _ :: _ => S (rune_count f (skipn (rune_len t) t))
  | _, _ => O
  end.
Definition RuneCountInString (t : bytes) : nat := rune_count (length t) t.

(** fmt: %v of a string is the string; %-6v fills it up to six runes with blanks on the right. *)
Definition pad_right (width : nat) (t : bytes) : bytes := t ++ repeat 32 (width - RuneCountInString t).

(** [string(rune(9492))] and [string(rune(9472))] *)
Definition corner : bytes := [226; 148; 148].
Definition dash : bytes := [226; 148; 128].

(** parse_utils.go:150-167: the line of one child *)
Definition tree_line (depth : nat) (withValues : bool) (label value : bytes) : bytes :=
  let tab := repeat 9 (pred depth) in
  if withValues then
    match depth with
    | O => tab ++ dash ++ [32] ++ pad_right 6 label ++ b " : " ++ value ++ [10]
    | _ => [9] ++ (tab ++ corner ++ [32]) ++ [32] ++ pad_right 6 label ++ b " : " ++ value ++ [10]
    end
  else
    match depth with
    | O => tab ++ dash ++ [32] ++ label ++ [10]
    | _ => [9] ++ (tab ++ corner ++ [32]) ++ [32] ++ label ++ [10]
    end.

(** parse_utils.go:149-172 [createTree]: what it appends to [*str]; the argument [json] is not used. *)
Fixpoint createTree (n : node) (depth : nat) (withValues : bool) : bytes :=
  match n with
  | Node _ _ down =>
      (fix go (ds : list node) : bytes :=
         match ds with
         | [] => []
         | (Node l v dd as d) :: r =>
             tree_line depth withValues l v ++ (match dd with [] => [] | _ => createTree d (S depth) withValues end) ++ go r
         end) down
  end.

(** parse_utils.go:136-140 [Tree], 143-147 [TreeFull] *)
Definition P_Tree (p : parser) : bytes := createTree (p_core p) 0 false.
Definition P_TreeFull (p : parser) : bytes := createTree (p_core p) 0 true.
