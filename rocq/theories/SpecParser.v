(** Conditions on documents and paths under which the Parser's tree follows the document.  They speak about trees
    only, not about the model of the code. *)
From Verif Require Import GoStd Json Spec Focus.

Local Open Scope N_scope.

(** An array of exactly one scalar or string. *)
Definition lonely (v : jv) : bool := match v with JArr _ [e] => negb (container (e_val e)) | _ => false end.

(** An array index written the way Itoa writes it (no sign, no leading zero). *)
Definition exact_step (v : jv) (x : bytes) : bool :=
  match v with
  | JArr _ _ => match atoi x with Some z => bytes_eqb (itoa z) x | None => false end
  | _ => true
  end.

(** Every index on the path is written that way, and no step goes into a [lonely] array. *)
Fixpoint straight (v : jv) (p : list bytes) : bool :=
  match p with
  | [] => true
  | x :: p' => negb (lonely v) && exact_step v x && match child v x with Some c => straight c p' | None => true end
  end.

(** The same on abstract documents. *)
Definition lonely_in (t : jd) : bool := match t with DArr [DScalar _] | DArr [DString _] => true | _ => false end.
Definition exact_in (t : jd) (x : bytes) : bool :=
  match t with
  | DArr _ => match atoi x with Some z => bytes_eqb (itoa z) x | None => false end
  | _ => true
  end.
Fixpoint straight_in (t : jd) (p : list bytes) : bool :=
  match p with
  | [] => true
  | x :: p' => negb (lonely_in t) && exact_in t x && match d_child t x with Some c => straight_in c p' | None => true end
  end.

(** Texts of at most 2^63 - 1 bytes: every Go slice. *)
Definition fits (t : bytes) : Prop := (Z.of_nat (length t) <= int64_max)%Z.

(** Values that have nothing inside. *)
Definition leaf (v : jv) : bool := negb (container v).
Definition hollow (v : jv) : bool := match v with JArr _ (_ :: _) | JObj _ (_ :: _) => false | _ => true end.

(** Not the key of another member: the first one with this key is the only one. *)
Definition unique (x : bytes) (v : jv) : Prop :=
  match v with
  | JObj _ ms => forall l1 m l2, ms = l1 ++ m :: l2 -> m_key m = x -> nokey x l1 /\ nokey x l2
  | _ => True
  end.
