(** Operations on a document as data: calls of the library functions and their meaning on abstract documents. *)
From Coq Require Import String.
From Verif Require Import GoStd Json Spec Focus Domains Core Errors Api.

Local Open Scope N_scope.

(** ** Histories *)
Inductive op : Type :=
| OSet (p : list bytes) (v : jv)
| ODelete (q : list bytes) (x : bytes)
| OAdd (p : list bytes) (v : jv)
| OAddKV (p : list bytes) (k : bytes) (v : jv)
| OInsert (p : list bytes) (z : Z) (v : jv)
| OSetKey (q : list bytes) (x k : bytes)
| OStore (p : list bytes) (k : bytes) (v : jv).

Definition call (o : op) (json : bytes) : upd :=
  match o with
  | OSet p v => Set_ json (render v) p
  | ODelete q x => Delete json (q ++ [x])
  | OAdd p v => Add_ json (render v) p
  | OAddKV p k v => AddKeyValue json k (Some (render v)) p
  | OInsert p z v => Insert json z (render v) p
  | OSetKey q x k => SetKey json k (q ++ [x])
  | OStore p k v => Store json k (Some (render v)) p
  end.

(** The caller keeps the document it has when an operation fails. *)
Fixpoint run (ops : list op) (json : bytes) : option bytes :=
  match ops with
  | [] => Some json
  | o :: ops => match call o json with
                | Done out => run ops out
                | Fail _ _ => run ops json
                | UPanic => None
                end
  end.

(** The same on abstract documents; None if the operation does not apply. *)
Definition meaning (o : op) (t : jd) : option jd :=
  match o with
  | OSet p v => d_modify t p (d_const (content v))
  | ODelete q x => d_modify t q (d_remove x)
  | OAdd p v => d_modify t p (d_append (content v))
  | OAddKV p k v => d_modify t p (d_add k (content v))
  | OInsert p z v => d_modify t p (d_insert z (content v))
  | OSetKey q x k => d_modify t q (d_rename x k)
  | OStore p k v => d_modify t p (d_store k (content v))
  end.

(** Operations whose arguments are well-formed and which are in the domain of the theorems above. *)
Definition legal (d : doc) (o : op) : Prop :=
  match o with
  | OSet p v => p <> [] /\ wf v = true
  | ODelete q x => True
  | OAdd p v => wf v = true
  | OAddKV p k v => wf v = true /\ str_ok k = true /\
      (seen_absent d p k \/ exists w, lookup (d_val d) p = Some (JObj w []))
  | OInsert p z v => wf v = true /\ (z <= int64_max)%Z /\
      exists w els, lookup (d_val d) p = Some (JArr w els) /\ insert_layout els z
  | OSetKey q x k => str_ok k = true /\ k <> [] /\ seen_absent d q k
  | OStore p k v => wf v = true /\ str_ok k = true /\
      (d_lookup (content (d_val d)) (p ++ [k]) <> None \/ seen_absent d p k)
  end.

(** Operations that do not apply and are rejected. *)
Definition rejected (d : doc) (o : op) : Prop :=
  match o with
  | OSet p v => p = [] \/ seen_unresolved d p
  | ODelete q x => seen_unresolved d (q ++ [x])
  | OAdd p v => seen_unresolved d p \/
      exists pre u post, focus (d_val d) p pre u post /\ is_arr u = false /\ (p <> [] -> looks 91 93 u = false)
  | OAddKV p k v => seen_unresolved d p \/
      (exists w ms, lookup (d_val d) p = Some (JObj w ms) /\ d_lookup (content (d_val d)) (p ++ [k]) <> None) \/
      exists pre u post, focus (d_val d) p pre u post /\ is_obj u = false /\ (p <> [] -> looks 123 125 u = false)
  | OInsert p z v => seen_unresolved d p \/
      (exists w els, lookup (d_val d) p = Some (JArr w els) /\ nth_z els z = None /\ in_int64 z = true) \/
      exists pre u post, focus (d_val d) p pre u post /\ is_arr u = false /\ (p <> [] -> looks 91 93 u = false)
  | OSetKey q x k => k = [] \/ d_lookup (content (d_val d)) (q ++ [k]) <> None \/
      exists w els, lookup (d_val d) q = Some (JArr w els)
  | OStore p k v => False
  end.

(** Every operation of the history, at the time it is called, applies and is legal, or is rejected. *)
Inductive lawful : doc -> list op -> jd -> Prop :=
| L_nil d : lawful d [] (content (d_val d))
| L_do d o ops c1 c2 : legal d o -> meaning o (content (d_val d)) = Some c1 ->
    (forall d', wf_doc d' = true -> call o (text d) = Done (text d') -> content (d_val d') = c1 -> lawful d' ops c2) ->
    lawful d (o :: ops) c2
| L_skip d o ops c2 : rejected d o -> lawful d ops c2 -> lawful d (o :: ops) c2.

(** Well-formed arguments. *)
Definition op_ok (o : op) : Prop :=
  match o with
  | OSet p v => p <> [] /\ wf v = true
  | ODelete _ _ => True
  | OAdd _ v => wf v = true
  | OAddKV _ k v | OStore _ k v => wf v = true /\ str_ok k = true
  | OInsert _ z v => wf v = true /\ in_int64 z = true
  | OSetKey _ _ k => k <> [] /\ str_ok k = true
  end.

(** Histories of Set, Delete and Add need no condition on the layout. *)
Definition plain_op (o : op) : Prop :=
  match o with
  | OSet p v => p <> [] /\ wf v = true
  | ODelete _ _ => True
  | OAdd _ v => wf v = true
  | _ => False
  end.

Fixpoint meanings (ops : list op) (t : jd) : option jd :=
  match ops with
  | [] => Some t
  | o :: ops => match meaning o t with Some t' => meanings ops t' | None => None end
  end.
