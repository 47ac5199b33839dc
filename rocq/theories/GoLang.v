(** Go statements as state transformers, for transcriptions that follow the source line by line. *)
From Verif Require Import GoStd.

(** How a statement ends: it falls through, continues, breaks, jumps to the label of the function, returns, panics;
    [Out] says the fuel of a loop was used up, which the theorems exclude. *)
Inductive flow (S R : Type) : Type :=
| Nrm (s : S) | Cnt (s : S) | Brk (s : S) | Gto (s : S) | Ret (r : R) | Pan | Out.
Arguments Nrm {S R} s. Arguments Cnt {S R} s. Arguments Brk {S R} s. Arguments Gto {S R} s.
Arguments Ret {S R} r. Arguments Pan {S R}. Arguments Out {S R}.

Definition cmd (S R : Type) : Type := S -> flow S R.

Section Statements.
  Context {S R : Type}.

  Definition pass : cmd S R := Nrm.
  Definition continue_ : cmd S R := Cnt.
  Definition break_ : cmd S R := Brk.
  Definition goto_ : cmd S R := Gto.
  Definition return_ (r : S -> R) : cmd S R := fun s => Ret (r s).
  Definition set_ (f : S -> S) : cmd S R := fun s => Nrm (f s).

  Definition then_ (c d : cmd S R) : cmd S R := fun s => match c s with Nrm s' => d s' | x => x end.
  Definition if_ (e : S -> bool) (c d : cmd S R) : cmd S R := fun s => if e s then c s else d s.

  (** [x := e] for an [x] that is not assigned again; [e] may panic *)
  Definition read {A : Type} (e : S -> res A) (c : A -> cmd S R) : cmd S R :=
    fun s => match e s with Ok a => c a s | _ => Pan end.

  (** [x := e] for an [x] that is; it is gone at the end of the block *)
  Definition leave {L : Type} (r : flow (S * L) R) : flow S R :=
    match r with
    | Nrm s => Nrm (fst s) | Cnt s => Cnt (fst s) | Brk s => Brk (fst s) | Gto s => Gto (fst s)
    | Ret r => Ret r | Pan => Pan | Out => Out
    end.
  Definition var {L : Type} (e : S -> L) (c : cmd (S * L) R) : cmd S R := fun s => leave (c (s, e s)).

  (** [for ; cond; post { body }] *)
  Fixpoint for_ (fuel : nat) (cond : S -> res bool) (post : S -> S) (body : cmd S R) (s : S) : flow S R :=
    match fuel with
    | O => Out
    | Datatypes.S fuel' =>
        match cond s with
        | Ok true =>
            match body s with
            | Nrm s' | Cnt s' => for_ fuel' cond post body (post s')
            | Brk s' => Nrm s'
            | Gto s' => Gto s'
            | Ret r => Ret r
            | Pan => Pan
            | Out => Out
            end
        | Ok false => Nrm s
        | _ => Pan
        end
    end.

  (** [c; label:] *)
  Definition label (c : cmd S R) : cmd S R := fun s => match c s with Gto s' => Nrm s' | x => x end.
End Statements.

Declare Scope stmt_scope.
Delimit Scope stmt_scope with stmt.
Notation "c ;; d" := (then_ c d) (at level 61, right associativity) : stmt_scope.
Open Scope stmt_scope.

(** [x[i]] for an [int] i *)
Definition zat {A : Type} (x : list A) (i : Z) : res A :=
  if (i <? 0)%Z then Panic else match nth_error x (Z.to_nat i) with Some c => Ok c | None => Panic end.
(** [x[i] = v]; used with constants in range only *)
Definition zput {A : Type} (x : list A) (i : N) (v : A) : list A := firstn (N.to_nat i) x ++ v :: skipn (S (N.to_nat i)) x.
Definition zlen {A : Type} (x : list A) : Z := Z.of_nat (length x).

(** A function: its body from its first state on *)
Definition returns {S A : Type} (r : flow S A) : flow unit A := match r with Ret a => Ret a | Out => Out | _ => Pan end.
Definition func {S A : Type} (body : cmd S A) (s : S) : flow unit A := returns (body s).
(** [x := f(...)] *)
Definition call {S R A : Type} (f : S -> flow unit A) (c : A -> cmd S R) : cmd S R :=
  fun s => match f s with Ret a => c a s | Out => Out | _ => Pan end.
(** [x[i:j]]; a slice may be extended up to its capacity, but no [j] here goes beyond the length *)
Definition zslice {A : Type} (x : list A) (i j : Z) : res (list A) :=
  if (i <? 0)%Z || (j <? i)%Z || (zlen x <? j)%Z then Panic else Ok (firstn (Z.to_nat (j - i)) (skipn (Z.to_nat i) x)).
