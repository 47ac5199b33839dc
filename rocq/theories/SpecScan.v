(** Any bytes at all, as something that looks for strings and brackets sees them. *)
From Coq Require Import String.
From Verif Require Import GoStd.

Local Open Scope N_scope.

(** Outside of strings, or in a string, after an odd number of backslashes or not. *)
Inductive where_ : Set := Outside | Inside (escaped : bool).
Definition next (w : where_) (c : N) : where_ :=
  match w with
  | Outside => if c =? 34 then Inside false else Outside
  | Inside e => if (c =? 34) && negb e then Outside else Inside ((c =? 92) && negb e)
  end.
Definition place (t : bytes) : where_ := fold_left next t Outside.

(** The bytes outside of strings, with one quote for every string. *)
Fixpoint outside (w : where_) (t : bytes) : bytes :=
  match t with
  | [] => []
  | c :: r => match w with Outside => c :: outside (next w c) r | Inside _ => outside (next w c) r end
  end.
Definition skeleton (t : bytes) : bytes := outside Outside t.

Definition opening (c : N) : bool := (c =? 91) || (c =? 123).
Definition closing (c : N) : bool := (c =? 93) || (c =? 125).
Definition count (f : N -> bool) (t : bytes) : nat := length (filter f t).

(** Somewhere more brackets have been closed than opened. *)
Definition overclosed (u : bytes) : Prop := exists u1 u2, u = u1 ++ u2 /\ (count opening u1 < count closing u1)%nat.
(** As many brackets are closed as opened in the end. *)
Definition balanced (u : bytes) : Prop := count opening u = count closing u.
(** A colon before the first string. *)
Definition early_colon (u : bytes) : Prop := exists u1 u2, u = u1 ++ 58 :: u2 /\ ~ In 34 u1.
(** A bracket, or a comma with a comma or a colon before it. *)
Definition eventful (u : bytes) : Prop :=
  (exists c, In c u /\ opening c = true) \/ exists u1 u2, u = u1 ++ 44 :: u2 /\ (In 44 u1 \/ In 58 u1).

Definition blank (c : N) : bool := (c =? 32) || (c =? 9) || (c =? 10) || (c =? 13).
Definition begins_blank (t : bytes) : Prop := exists c r, t = c :: r /\ blank c = true.
