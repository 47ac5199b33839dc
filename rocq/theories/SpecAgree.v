(** Words in which agreement of the reading functions is stated. *)
From Coq Require Import String.
From Verif Require Import GoStd Iter.

(** [kv] is the two lists at once; it fails as both do and panics only where one of them does. *)
Definition zipped (kv : res (list bytes * list bytes)) (ks vs : res (list bytes)) : Prop :=
  match kv with
  | Ok (k, v) => ks = Ok k /\ vs = Ok v
  | Err e => ks = Err e /\ vs = Err e
  | Panic => ks = Panic \/ vs = Panic
  end.

Definition rmap {A B} (f : A -> B) (r : res A) : res B :=
  match r with Ok a => Ok (f a) | Err e => Err e | Panic => Panic end.

Definition is_container (t : jtype) : bool := match t with TArray | TObject => true | _ => false end.
Definition is_tarray (t : jtype) : bool := match t with TArray => true | _ => false end.

(** The texts [ts], one by one, are read as [l]. *)
Definition read_as {A} (g : bytes -> option A) (ts : list bytes) (l : list A) : Prop :=
  Forall2 (fun t a => g t = Some a) ts l.

Definition bool_word (t : bytes) : option bool :=
  if bytes_eqb t (b "true") then Some true else if bytes_eqb t (b "false") then Some false else None.
