(** Specification of the operations on abstract documents (no whitespace, no text).

    Nothing in this file refers to the model of the code. *)
From Verif Require Export Json.

Local Open Scope N_scope.

(** ** Reading *)

(** Value of the first pair with the given key. *)
Fixpoint assoc {V : Type} (k : bytes) (ms : list (bytes * V)) : option V :=
  match ms with
  | [] => None
  | (k', v) :: r => if bytes_eqb k' k then Some v else assoc k r
  end.

Definition d_child (t : jd) (x : bytes) : option jd :=
  match t with
  | DArr ds => match atoi x with Some z => nth_z ds z | None => None end
  | DObj ms => assoc x ms
  | _ => None
  end.

Fixpoint d_lookup (t : jd) (p : list bytes) : option jd :=
  match p with
  | [] => Some t
  | x :: p' => match d_child t x with Some c => d_lookup c p' | None => None end
  end.

(** ** Changing one position *)

(** Replace the value of the first pair with key [k]. *)
Fixpoint assoc_set {V : Type} (k : bytes) (v : V) (ms : list (bytes * V)) : list (bytes * V) :=
  match ms with
  | [] => []
  | (k', v') :: r => if bytes_eqb k' k then (k', v) :: r else (k', v') :: assoc_set k v r
  end.

Definition d_set_child (t : jd) (x : bytes) (c : jd) : jd :=
  match t with
  | DArr ds => match atoi x with
               | Some z => DArr (set_nth ds (Z.to_nat z) (fun _ => c))
               | None => t
               end
  | DObj ms => DObj (assoc_set x c ms)
  | _ => t
  end.

(** Apply [f] at the position [p]; None if the path does not resolve or [f] does not apply there. *)
Fixpoint d_modify (t : jd) (p : list bytes) (f : jd -> option jd) : option jd :=
  match p with
  | [] => f t
  | x :: p' =>
      match d_child t x with
      | Some c => match d_modify c p' f with Some c' => Some (d_set_child t x c') | None => None end
      | None => None
      end
  end.

(** ** The operations on a container *)

(** Replace whatever is there. *)
Definition d_const (v : jd) (_ : jd) : option jd := Some v.

Fixpoint assoc_remove {V : Type} (k : bytes) (ms : list (bytes * V)) : list (bytes * V) :=
  match ms with
  | [] => []
  | (k', v) :: r => if bytes_eqb k' k then r else (k', v) :: assoc_remove k r
  end.

Fixpoint remove_nth {A : Type} (n : nat) (l : list A) : list A :=
  match l, n with
  | [], _ => []
  | _ :: r, O => r
  | a :: r, S n' => a :: remove_nth n' r
  end.

(** Remove the child named by the step [x] (first pair with that key, or element at that index). *)
Definition d_remove (x : bytes) (t : jd) : option jd :=
  match t with
  | DArr ds => match atoi x with
               | Some z => match nth_z ds z with
                           | Some _ => Some (DArr (remove_nth (Z.to_nat z) ds))
                           | None => None
                           end
               | None => None
               end
  | DObj ms => match assoc x ms with Some _ => Some (DObj (assoc_remove x ms)) | None => None end
  | _ => None
  end.

(** Append an element to an array. *)
Definition d_append (v : jd) (t : jd) : option jd :=
  match t with DArr ds => Some (DArr (ds ++ [v])) | _ => None end.

(** Append a pair to an object that does not have the key. *)
Definition d_add (k : bytes) (v : jd) (t : jd) : option jd :=
  match t with
  | DObj ms => match assoc k ms with None => Some (DObj (ms ++ [(k, v)])) | Some _ => None end
  | _ => None
  end.

(** Put an element before the one at index [z]. *)
Definition d_insert (z : Z) (v : jd) (t : jd) : option jd :=
  match t with
  | DArr ds => match nth_z ds z with
               | Some _ => Some (DArr (firstn (Z.to_nat z) ds ++ v :: skipn (Z.to_nat z) ds))
               | None => None
               end
  | _ => None
  end.

Fixpoint assoc_rename {V : Type} (k new : bytes) (ms : list (bytes * V)) : list (bytes * V) :=
  match ms with
  | [] => []
  | (k', v) :: r => if bytes_eqb k' k then (new, v) :: r else (k', v) :: assoc_rename k new r
  end.

(** Rename the first pair with key [k], if the new name is free. *)
Definition d_rename (k new : bytes) (t : jd) : option jd :=
  match t with
  | DObj ms => match assoc k ms, assoc new ms with
               | Some _, None => Some (DObj (assoc_rename k new ms))
               | _, _ => None
               end
  | _ => None
  end.

(** Replace the value of key [k], or append the pair. *)
Definition d_store (k : bytes) (v : jd) (t : jd) : option jd :=
  match t with
  | DObj ms => match assoc k ms with
               | Some _ => Some (DObj (assoc_set k v ms))
               | None => Some (DObj (ms ++ [(k, v)]))
               end
  | _ => None
  end.

(** ** Two paths that part ways in the tree [t]: they name different children of some common node. *)
Definition same_step (t : jd) (x y : bytes) : Prop :=
  match t with DArr _ => atoi x = atoi y | _ => x = y end.

Fixpoint apart (t : jd) (p q : list bytes) : Prop :=
  match p, q with
  | x :: p', y :: q' =>
      (same_step t x y -> exists c, d_child t x = Some c /\ apart c p' q')
  | _, _ => False
  end.
