(** What the pointers of the parser stand for (parse_utils.go:8-13), and what its integer sequences should do.

    Nodes live in a heap: the address of a node is its position, a nil pointer is [None]. *)
From Verif Require Import GoStd Parser.

Record cell : Type := Cell { c_label : bytes; c_value : bytes; c_up : option nat; c_down : list nat }.
Notation heap := (list cell).

(** [tree h up a n A]: the node at address [a] with everything below it is [n]; its [up] pointer is [up], the [up] pointer of every
    node below leads to the node that lists it; [A] are the addresses used.  There is no sharing when [A] has no duplicates. *)
Inductive tree (h : heap) : option nat -> nat -> node -> list nat -> Prop :=
| T_node up a l v ds ns A :
    nth_error h a = Some (Cell l v up ds) -> trees h a ds ns A -> tree h up a (Node l v ns) (a :: A)
with trees (h : heap) : nat -> list nat -> list node -> list nat -> Prop :=
| T_nil a : trees h a [] [] []
| T_cons a d ds n ns A B : tree h (Some a) d n A -> trees h a ds ns B -> trees h a (d :: ds) (n :: ns) (A ++ B).

(** The node at address [a] stands for [n]: no node below is reached in two ways. *)
Definition stands (h : heap) (a : nat) (n : node) : Prop := exists up A, tree h up a n A /\ NoDup A.

(** ** A stack of integers, top first *)
Inductive seq_op : Type := Push (z : Z) | Pop | Last | Inc.
(** The stack afterwards and the number returned; [None]: a panic. *)
Definition stack_step (s : list Z) (o : seq_op) : option (list Z * list Z) :=
  match o, s with
  | Push z, _ => Some (z :: s, [])
  | _, [] => None
  | Pop, z :: r => Some (r, [z])
  | Last, z :: _ => Some (s, [z])
  | Inc, z :: r => Some ((z + 1)%Z :: r, [])
  end.
(** The numbers returned in a history. *)
Fixpoint stack_run (s : list Z) (ops : list seq_op) : option (list Z) :=
  match ops with
  | [] => Some []
  | o :: r =>
      match stack_step s o with
      | None => None
      | Some (s', out) => match stack_run s' r with None => None | Some rest => Some (out ++ rest) end
      end
  end.

(** ** Calls of the update methods *)
Inductive pcall : Type :=
| CSet (v : bytes) (path : list bytes)
| CSetKey (k : bytes) (path : list bytes)
| CDelete (path : list bytes)
| CAddKeyValue (k v : bytes) (path : list bytes)
| CAdd (v : bytes) (path : list bytes)
| CInsert (i : Z) (v : bytes) (path : list bytes).
