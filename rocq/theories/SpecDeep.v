(** Documents made of nested Go maps and slices (C80): what the calls are to do to them. *)
From Coq Require Import String.
From Verif Require Import GoStd Json Spec Domains SpecTyped Core Errors Api Typed Make SpecMade.

Local Open Scope N_scope.

(** A string, a map, in the order of its members, or a slice. *)
Inductive made : Type := MStr (s : bytes) | MMap (ps : list (bytes * made)) | MList (ms : list made).

(** The text: the maps and slices are given to the functions of make.go inside out, each text made being a value of the next. *)
Fixpoint make (pf : bytes -> bool) (m : made) : bytes :=
  match m with
  | MStr s => s
  | MMap ps => MakeJsonWithMap pf (nonnil (map (fun kv => (fst kv, make pf (snd kv))) ps))
  | MList ms => MakeArrayString pf (nonnil (map (make pf) ms))
  end.

(** Strings in the domain of C27 and keys that need no escaping. *)
Fixpoint good (pf : bytes -> bool) (m : made) : Prop :=
  match m with
  | MStr s => fit pf s
  | MMap ps => fold_right (fun kv P => str_ok (fst kv) = true /\ good pf (snd kv) /\ P) True ps
  | MList ms => fold_right (fun m P => good pf m /\ P) True ms
  end.
Definition filled (m : made) : Prop := match m with MStr _ => False | _ => True end.

(** The step of a path: a key of a map, an index of a slice. *)
Definition m_child (m : made) (x : bytes) : option made :=
  match m with
  | MStr _ => None
  | MMap ps => assoc x ps
  | MList ms => match atoi x with Some z => nth_z ms z | None => None end
  end.
Fixpoint m_at (m : made) (p : list bytes) : option made :=
  match p with
  | [] => Some m
  | x :: p => match m_child m x with Some m' => m_at m' p | None => None end
  end.

(** [m] with the value at [p] changed by [f]; None if there is no such value or [f] does not apply. *)
Definition m_put (m : made) (x : bytes) (v : made) : made :=
  match m with
  | MStr _ => m
  | MMap ps => MMap (assoc_set x v ps)
  | MList ms => match atoi x with Some z => MList (set_nth ms (Z.to_nat z) (fun _ => v)) | None => m end
  end.
Fixpoint m_change (m : made) (p : list bytes) (f : made -> option made) : option made :=
  match p with
  | [] => f m
  | x :: p => match m_child m x with
              | Some m' => match m_change m' p f with Some v => Some (m_put m x v) | None => None end
              | None => None
              end
  end.

(** The calls and what they are to do. *)
Inductive mcmd : Type :=
| MSet (p : list bytes) (v : made) | MDelete (p : list bytes) (x : bytes) | MStore (p : list bytes) (k : bytes) (v : made)
| MAddKey (p : list bytes) (k : bytes) (v : made) | MRename (p : list bytes) (x k : bytes)
| MAppend (p : list bytes) (v : made) | MInsert (p : list bytes) (i : Z) (v : made).

Definition m_remove (x : bytes) (m : made) : option made :=
  match m with
  | MStr _ => None
  | MMap ps => match assoc x ps with Some _ => Some (MMap (assoc_remove x ps)) | None => None end
  | MList ms => match atoi x with
                | Some z => match nth_z ms z with Some _ => Some (MList (remove_nth (Z.to_nat z) ms)) | None => None end
                | None => None
                end
  end.
Definition m_effect (c : mcmd) (m : made) : option made :=
  match c with
  | MSet p v => m_change m p (fun _ => Some v)
  | MDelete p x => m_change m p (m_remove x)
  | MStore p k v => m_change m p (fun m' => match m' with
                                            | MMap ps => Some (MMap (match assoc k ps with Some _ => assoc_set k v ps | None => ps ++ [(k, v)] end))
                                            | _ => None
                                            end)
  | MAddKey p k v => m_change m p (fun m' => match m' with
                                             | MMap ps => match assoc k ps with Some _ => None | None => Some (MMap (ps ++ [(k, v)])) end
                                             | _ => None
                                             end)
  | MRename p x k => m_change m p (fun m' => match m' with
                                             | MMap ps => match assoc k ps, assoc x ps with None, Some _ => Some (MMap (assoc_rename x k ps)) | _, _ => None end
                                             | _ => None
                                             end)
  | MAppend p v => m_change m p (fun m' => match m' with MList ms => Some (MList (ms ++ [v])) | _ => None end)
  | MInsert p i v => m_change m p (fun m' => match m' with
                                             | MList ms => match nth_z ms i with Some _ => Some (MList (firstn (Z.to_nat i) ms ++ v :: skipn (Z.to_nat i) ms)) | None => None end
                                             | _ => None
                                             end)
  end.
Definition do_mcmd (pf : bytes -> bool) (c : mcmd) (t : bytes) : upd :=
  match c with
  | MSet p v => SetString pf t (make pf v) p
  | MDelete p x => Delete t (p ++ [x])
  | MStore p k v => StoreString pf t k (make pf v) p
  | MAddKey p k v => AddKeyValueString pf t k (make pf v) p
  | MRename p x k => SetKey t k (p ++ [x])
  | MAppend p v => AddString pf t (make pf v) p
  | MInsert p i v => InsertString pf t i (make pf v) p
  end.

(** The values are good, the indices are ints, the root is not Set, and a key to be new is one the text shows nowhere in quotes. *)
Definition new_in (t k : bytes) : Prop := k <> [] /\ ~ occurs (quoted k) t /\ forall r, t <> k ++ 34 :: r.
Definition mcmd_ok (pf : bytes -> bool) (m : made) (c : mcmd) : Prop :=
  match c with
  | MSet p v => p <> [] /\ good pf v
  | MDelete _ _ => True
  | MStore p k v => str_ok k = true /\ good pf v /\ (m_at m (p ++ [k]) <> None \/ new_in (make pf m) k)
  | MAddKey p k v => str_ok k = true /\ good pf v /\ new_in (make pf m) k
  | MRename p x k => str_ok k = true /\ new_in (make pf m) k
  | MAppend _ v => good pf v
  | MInsert _ i v => in_int64 i = true /\ good pf v
  end.

(** A history of calls each of which applies. *)
Fixpoint m_goes (pf : bytes -> bool) (cs : list mcmd) (m m' : made) : Prop :=
  match cs with
  | [] => m = m'
  | c :: cs => mcmd_ok pf m c /\ exists m1, m_effect c m = Some m1 /\ m_goes pf cs m1 m'
  end.

(** The same asking of a new key only that it need no escaping. *)
Definition mcmd_easy (pf : bytes -> bool) (c : mcmd) : Prop :=
  match c with
  | MSet p v => p <> [] /\ good pf v
  | MDelete _ _ => True
  | MStore p k v | MAddKey p k v => k <> [] /\ str_ok k = true /\ good pf v
  | MRename p x k => k <> [] /\ str_ok k = true
  | MAppend _ v => good pf v
  | MInsert _ i v => in_int64 i = true /\ good pf v
  end.

(** ** Walking *)

(** The strings in the value with their paths, in the order of the text. *)
Fixpoint m_leaves (p : list bytes) (m : made) : list (list bytes * bytes) :=
  match m with
  | MStr s => [(p, s)]
  | MMap ps => (fix go (ps : list (bytes * made)) : list (list bytes * bytes) :=
                  match ps with
                  | [] => []
                  | (k, v) :: r => m_leaves (p ++ [k]) v ++ go r
                  end) ps
  | MList ms => (fix go (i : nat) (ms : list made) : list (list bytes * bytes) :=
                   match ms with
                   | [] => []
                   | v :: r => m_leaves (p ++ [itoa (Z.of_nat i)]) v ++ go (S i) r
                   end) O ms
  end.

(** No map or slice is empty and no map has a key twice. *)
Fixpoint m_full (m : made) : Prop :=
  match m with
  | MStr _ => True
  | MMap ps => ps <> [] /\ NoDup (map fst ps) /\ fold_right (fun kv P => m_full (snd kv) /\ P) True ps
  | MList ms => ms <> [] /\ fold_right (fun m P => m_full m /\ P) True ms
  end.

(** ** What a Parser finds (C29): not the only string of a slice, and indices only as Itoa writes them. *)
Fixpoint m_straight (m : made) (p : list bytes) : Prop :=
  match p with
  | [] => True
  | x :: p =>
      match m with
      | MStr _ | MMap _ => True
      | MList ms => (forall s, ms <> [MStr s]) /\ (forall z, atoi x = Some z -> itoa z = x)
      end /\
      match m_child m x with Some m' => m_straight m' p | None => True end
  end.

(** ** What a call says whose path ends at [m]: the step [x] does not lead on and [r] is left of the path. *)
Definition m_miss (m : made) (x : bytes) (r : list bytes) : err :=
  match m with
  | MList ms =>
      match atoi x with
      | None => EIndexExpected
      | Some z => match ms, r with [], [] => if (z =? 0)%Z then EEmptyArray else EIndexOutOfRange | _, _ => EIndexOutOfRange end
      end
  | _ => EKeyNotFound x
  end.

(** ** Any call, whether it applies or not

    The path leads on or ends at a slice, or at a map with a key that the text shows nowhere in quotes; it does not lead into a string. *)
Fixpoint m_tells (t : bytes) (m : made) (p : list bytes) : Prop :=
  match p with
  | [] => True
  | x :: p =>
      match m with
      | MStr _ => False
      | MMap ps => match assoc x ps with Some v => m_tells t v p | None => new_in t x end
      | MList ms => match m_child m x with Some v => m_tells t v p | None => True end
      end
  end.
(** No key is empty, no index negative; Store into a slice is left out. *)
Definition m_sure (pf : bytes -> bool) (m : made) (c : mcmd) : Prop :=
  let t := make pf m in
  match c with
  | MSet p v => p <> [] /\ good pf v /\ m_tells t m p
  | MDelete p x => m_tells t m (p ++ [x])
  | MStore p k v => str_ok k = true /\ good pf v /\ m_tells t m (p ++ [k]) /\ forall ms, m_at m p <> Some (MList ms)
  | MAddKey p k v => k <> [] /\ str_ok k = true /\ good pf v /\ m_tells t m p /\ forall ps, m_at m p = Some (MMap ps) -> assoc k ps <> None \/ new_in t k
  | MRename p x k => k <> [] /\ str_ok k = true /\ m_tells t m (p ++ [x]) /\ forall ps, m_at m p = Some (MMap ps) -> assoc k ps <> None \/ new_in t k
  | MAppend p v => good pf v /\ m_tells t m p
  | MInsert p i v => (0 <= i)%Z /\ in_int64 i = true /\ good pf v /\ m_tells t m p
  end.
Definition m_after (c : mcmd) (m : made) : made := match m_effect c m with Some m' => m' | None => m end.
Definition m_applies (c : mcmd) (m : made) : bool := match m_effect c m with Some _ => true | None => false end.
