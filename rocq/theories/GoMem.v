(** Go byte slices with their backing arrays.  The memory is the list of byte arrays ever allocated; a slice is a window of
    one array, with a capacity that may reach beyond its length.  [append] writes in place if the capacity allows and
    copies otherwise; the spare capacity it then leaves is Go's business: [grow] is any function.  The zero-length,
    zero-capacity slice of an array that does not exist stands for nil. *)
From Coq Require Import String.
From Verif Require Import GoStd.

Definition mem := list bytes.
Record bsl : Type := Bsl { b_arr : nat; b_off : nat; b_len : nat; b_cap : nat }.

Definition block (h : mem) (a : nat) : bytes := nth a h [].

(** The bytes a slice shows. *)
Definition content (h : mem) (s : bsl) : bytes := firstn (b_len s) (skipn (b_off s) (block h (b_arr s))).

(** A computation on the memory; [None] is a panic. *)
Definition M (A : Type) : Type := mem -> option (A * mem).
Definition ret {A} (a : A) : M A := fun h => Some (a, h).
Definition panic {A} : M A := fun _ => None.
Definition mbind {A B} (m : M A) (k : A -> M B) : M B :=
  fun h => match m h with Some (a, h') => k a h' | None => None end.

Declare Scope mem_scope.
Delimit Scope mem_scope with mem.
Notation "'let!' x := m 'in' k" := (mbind m (fun x => k)) (at level 200, x name, m at level 100, k at level 200) : mem_scope.
Open Scope mem_scope.

(** Reading all bytes of a slice, as a loop over it or a conversion to string does. *)
Definition look (s : bsl) : M bytes := fun h => Some (content h s, h).

(** Evaluating an expression that reads memory only and may panic. *)
Definition eval {A} (r : res A) : M A := match r with Ok a => ret a | _ => panic end.

(** [s[i:j]]: the bounds are checked against the capacity; the new slice keeps what is left of it. *)
Definition sub (s : bsl) (i j : nat) : M bsl :=
  if (i <=? j) && (j <=? b_cap s) then ret (Bsl (b_arr s) (b_off s + i) (j - i) (b_cap s - i)) else panic.
(** [s[i:]] and [s[:j]] *)
Definition sub_from (s : bsl) (i : nat) : M bsl := sub s i (b_len s).
Definition sub_to (s : bsl) (j : nat) : M bsl := sub s 0 j.

(** A new array holding [t] and [spare] zero bytes. *)
Definition new_block (t : bytes) (spare : nat) : M bsl :=
  fun h => Some (Bsl (length h) 0 (length t) (length t + spare), h ++ [t ++ repeat 0%N spare]).

(** [make([]byte, n)] and [make([]byte, 0, n)]: a negative [n] panics. *)
Definition make_len (n : Z) : M bsl := if (n <? 0)%Z then panic else new_block (repeat 0%N (Z.to_nat n)) 0.
Definition make_cap (n : Z) : M bsl := if (n <? 0)%Z then panic else new_block [] (Z.to_nat n).

(** [t] with the bytes from [p] on overwritten by [xs]. *)
Definition overwrite (t xs : bytes) (p : nat) : bytes := firstn p t ++ xs ++ skipn (p + length xs) t.
Fixpoint set_block (h : mem) (a : nat) (t : bytes) : mem :=
  match h, a with
  | [], _ => []
  | _ :: r, O => t :: r
  | x :: r, S a' => x :: set_block r a' t
  end.
Definition poke (s : bsl) (p : nat) (xs : bytes) (h : mem) : mem :=
  set_block h (b_arr s) (overwrite (block h (b_arr s)) xs (b_off s + p)).

(** [s[i] = c] *)
Definition store (s : bsl) (i : nat) (c : N) : M unit :=
  fun h => if (i <? b_len s) then Some (tt, poke s i [c] h) else None.

(** [copy(dst, src)]: as many bytes as both have; overlapping windows are copied as if through a temporary. *)
Definition copy (dst src : bsl) : M unit :=
  fun h => Some (tt, poke dst 0 (firstn (b_len dst) (content h src)) h).

Section Append.
  Variable grow : nat -> nat.

  (** [append(s, xs...)] for bytes already read *)
  Definition append_bytes (s : bsl) (xs : bytes) : M bsl :=
    fun h =>
      if b_len s + length xs <=? b_cap s then
        Some (Bsl (b_arr s) (b_off s) (b_len s + length xs) (b_cap s), poke s (b_len s) xs h)
      else new_block (content h s ++ xs) (grow (b_len s + length xs)) h.

  (** [append(s, t...)] *)
  Definition append_slice (s t : bsl) : M bsl := let! xs := look t in append_bytes s xs.
End Append.

(** [[]byte(str)] for a string: a fresh array.  Go may leave spare capacity. *)
Definition of_string (spare : nat) (t : bytes) : M bsl := new_block t spare.
