(** Specification of a Scheme: the key list and the saved key list, as plain values. *)
From Coq Require Import String.
From Verif Require Import GoStd.

Inductive sop : Type :=
| SAdd (k : bytes) | SRemove (k : bytes) | SSave | SRestore | SOriginal | SCurrent.

(** What a call shows. *)
Inductive shown : Type := ShBool (v : bool) | ShNone | ShKeys (ks : list bytes).

Definition mem_key (k : bytes) (ks : list bytes) : bool := existsb (fun x => bytes_eqb x k) ks.

(** [o] is the saved list, [ks] the current one. *)
Definition spec_step (op : sop) (st : list bytes * list bytes) : (list bytes * list bytes) * shown :=
  let '(o, ks) := st in
  match op with
  | SAdd k => if mem_key k ks then (st, ShBool false) else ((o, ks ++ [k]), ShBool true)
  | SRemove k => ((o, filter (fun x => negb (bytes_eqb x k)) ks), ShBool (mem_key k ks))
  | SSave => ((ks, ks), ShNone)
  | SRestore => ((o, o), ShNone)
  | SOriginal => (st, ShKeys o)
  | SCurrent => (st, ShKeys ks)
  end.

Fixpoint spec_run (ops : list sop) (st : list bytes * list bytes) : (list bytes * list bytes) * list shown :=
  match ops with
  | [] => (st, [])
  | op :: r => let '(st1, x) := spec_step op st in let '(st2, xs) := spec_run r st1 in (st2, x :: xs)
  end.
