(** Documents made of Go maps and slices (C78): what the calls are to do to the map or slice, and the calls. *)
From Coq Require Import String.
From Verif Require Import GoStd Json Spec SpecFlat Domains SpecTyped SpecParser Core Errors Api Typed Parser Make.

Local Open Scope N_scope.

(** nil for the empty list *)
Definition nonnil {A : Type} (l : list A) : option (list A) := match l with [] => None | _ => Some l end.

(** ** What may be given for a value

    A string in the domain of C27, or the text of an array or an object without insignificant whitespace whose keys and strings have no brackets:
    such texts are put as they are, so that documents are made of documents. *)
Definition nested (s : bytes) : Prop :=
  exists c, match c with DArr _ | DObj _ => True | _ => False end /\ s = flat c /\ wf (tree c) = true /\ calm (tree c) = true.
Definition item (pf : bytes -> bool) (s : bytes) : Prop := fit pf s \/ nested s.
(** What keeps the document made a [nested] one. *)
Definition quiet (s : bytes) : Prop := no_brace s = true \/ nested s.

(** ** Maps, as lists of pairs in the order of the members *)
Definition sheet (pf : bytes -> bool) (ps : list (bytes * bytes)) : Prop :=
  usable (map fst ps) /\ Forall (item pf) (map snd ps).

Inductive cmd : Type :=
| CSet (k v : bytes) | CStore (k v : bytes) | CAdd (k v : bytes) | CDelete (k : bytes) | CRename (k new : bytes).

Definition cmd_ok (pf : bytes -> bool) (c : cmd) : Prop :=
  match c with
  | CSet _ v => item pf v
  | CStore k v | CAdd k v => k <> [] /\ str_ok k = true /\ item pf v
  | CDelete _ => True
  | CRename _ new => new <> [] /\ str_ok new = true
  end.

(** The new map, or the error. *)
Definition step (c : cmd) (ps : list (bytes * bytes)) : list (bytes * bytes) + err :=
  match c with
  | CSet k v => match assoc k ps with Some _ => inl (assoc_set k v ps) | None => inr (EKeyNotFound k) end
  | CStore k v => match assoc k ps with Some _ => inl (assoc_set k v ps) | None => inl (ps ++ [(k, v)]) end
  | CAdd k v => match assoc k ps with Some _ => inr (EKeyAlreadyExist k) | None => inl (ps ++ [(k, v)]) end
  | CDelete k => match assoc k ps with Some _ => inl (assoc_remove k ps) | None => inr (EKeyNotFound k) end
  | CRename k new =>
      match assoc new ps, assoc k ps with
      | Some _, _ => inr (EBadJSON 0)
      | None, Some _ => inl (assoc_rename k new ps)
      | None, None => inr (EKeyNotFound k)
      end
  end.

Fixpoint steps (cs : list cmd) (ps : list (bytes * bytes)) : list (bytes * bytes) :=
  match cs with
  | [] => ps
  | c :: cs => steps cs (match step c ps with inl ps' => ps' | inr _ => ps end)
  end.

(** The calls, on the object at the path [q]. *)
Definition do_cmd_at (pf : bytes -> bool) (q : list bytes) (c : cmd) (t : bytes) : upd :=
  match c with
  | CSet k v => SetString pf t v (q ++ [k])
  | CStore k v => StoreString pf t k v q
  | CAdd k v => AddKeyValueString pf t k v q
  | CDelete k => Delete t (q ++ [k])
  | CRename k new => SetKey t new (q ++ [k])
  end.
Definition do_cmd (pf : bytes -> bool) : cmd -> bytes -> upd := do_cmd_at pf [].

(** The caller keeps the document it has when a call fails. *)
Fixpoint run_calls {A : Type} (call : A -> bytes -> upd) (cs : list A) (t : bytes) : option bytes :=
  match cs with
  | [] => Some t
  | c :: cs => match call c t with
               | Done t' => run_calls call cs t'
               | Fail _ _ => run_calls call cs t
               | UPanic => None
               end
  end.

(** ** The same with a Parser (there is no Parser.Store)

    SetKey looks for the key before it looks whether the new one is taken. *)
Definition p_step (c : cmd) (ps : list (bytes * bytes)) : list (bytes * bytes) + err :=
  match c with
  | CRename k new =>
      match assoc k ps, assoc new ps with
      | None, _ => inr (EKeyNotFound k)
      | Some _, Some _ => inr (EKeyAlreadyExist new)
      | Some _, None => inl (assoc_rename k new ps)
      end
  | _ => step c ps
  end.
Definition do_p_cmd (pf : bytes -> bool) (c : cmd) (p : parser) : pres :=
  match c with
  | CSet k v => P_Set p (formatType pf v) [k]
  | CStore _ _ => PRet p None
  | CAdd k v => P_AddKeyValueString pf p k v []
  | CDelete k => P_Delete p [k]
  | CRename k new => P_SetKey p new [k]
  end.
Fixpoint p_run_calls (pf : bytes -> bool) (cs : list cmd) (p : parser) : option parser :=
  match cs with
  | [] => Some p
  | c :: cs => match do_p_cmd pf c p with PRet p' _ => p_run_calls pf cs p' | PPanic => None end
  end.
Fixpoint p_steps (cs : list cmd) (ps : list (bytes * bytes)) : list (bytes * bytes) :=
  match cs with
  | [] => ps
  | c :: cs => p_steps cs (match p_step c ps with inl ps' => ps' | inr _ => ps end)
  end.

(** No Store, no arrays or objects for values, and nothing added to the object without members (where Parser.AddKeyValue puts a comma). *)
Definition p_able (pf : bytes -> bool) (c : cmd) (ps : list (bytes * bytes)) : Prop :=
  match c with CStore _ _ => False | CAdd _ v => ps <> [] /\ fit pf v | CSet _ v => fit pf v | _ => True end.
Fixpoint p_goes (pf : bytes -> bool) (cs : list cmd) (ps : list (bytes * bytes)) : Prop :=
  match cs with
  | [] => fits (MakeJsonWithMap pf (nonnil ps))
  | c :: cs => cmd_ok pf c /\ p_able pf c ps /\ fits (MakeJsonWithMap pf (nonnil ps)) /\ p_goes pf cs (match p_step c ps with inl ps' => ps' | inr _ => ps end)
  end.

(** The value of a key, the empty string if it is not there. *)
Definition value_or_empty (ps : list (bytes * bytes)) (k : bytes) : bytes := match assoc k ps with Some v => v | None => [] end.

(** ** Slices *)
Inductive acmd (A : Type) : Type := ASet (i : Z) (x : A) | AAdd (x : A) | AInsert (i : Z) (x : A) | ADelete (i : Z).
Arguments ASet {A}. Arguments AAdd {A}. Arguments AInsert {A}. Arguments ADelete {A}.

Definition acmd_ok {A : Type} (P : A -> Prop) (c : acmd A) : Prop :=
  match c with
  | ASet i x | AInsert i x => in_int64 i = true /\ P x
  | AAdd x => P x
  | ADelete i => in_int64 i = true
  end.

(** The new slice; None if there is no such index. *)
Definition astep {A : Type} (c : acmd A) (xs : list A) : option (list A) :=
  match c with
  | ASet i x => match nth_z xs i with Some _ => Some (set_nth xs (Z.to_nat i) (fun _ => x)) | None => None end
  | AAdd x => Some (xs ++ [x])
  | AInsert i x => match nth_z xs i with Some _ => Some (firstn (Z.to_nat i) xs ++ x :: skipn (Z.to_nat i) xs) | None => None end
  | ADelete i => match nth_z xs i with Some _ => Some (remove_nth (Z.to_nat i) xs) | None => None end
  end.

Fixpoint asteps {A : Type} (cs : list (acmd A)) (xs : list A) : list A :=
  match cs with
  | [] => xs
  | c :: cs => asteps cs (match astep c xs with Some xs' => xs' | None => xs end)
  end.

(** The calls, on the array at the path [q]. *)
Definition do_string_at (pf : bytes -> bool) (q : list bytes) (c : acmd bytes) (t : bytes) : upd :=
  match c with
  | ASet i x => SetString pf t x (q ++ [itoa i])
  | AAdd x => AddString pf t x q
  | AInsert i x => InsertString pf t i x q
  | ADelete i => Delete t (q ++ [itoa i])
  end.
Definition do_int_at (q : list bytes) (c : acmd Z) (t : bytes) : upd :=
  match c with
  | ASet i x => SetInt t x (q ++ [itoa i])
  | AAdd x => AddInt t x q
  | AInsert i x => InsertInt t i x q
  | ADelete i => Delete t (q ++ [itoa i])
  end.
Definition do_bool_at (q : list bytes) (c : acmd bool) (t : bytes) : upd :=
  match c with
  | ASet i x => SetBool t x (q ++ [itoa i])
  | AAdd x => AddBool t x q
  | AInsert i x => InsertBool t i x q
  | ADelete i => Delete t (q ++ [itoa i])
  end.
Definition do_string (pf : bytes -> bool) : acmd bytes -> bytes -> upd := do_string_at pf [].
Definition do_int : acmd Z -> bytes -> upd := do_int_at [].
Definition do_bool : acmd bool -> bytes -> upd := do_bool_at [].
