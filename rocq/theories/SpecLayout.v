(** Calls whose meaning does not hang on blanks (C44).  Trees and contents only. *)
From Coq Require Import String.
From Verif Require Import GoStd Json Spec Domains Ops.

(** No member [k] in the object at [p], and the search for it finds nothing in what follows the object. *)
Definition free_key (t : jv) (p : list bytes) (k : bytes) : Prop :=
  exists w ms, lookup t p = Some (JObj w ms) /\ find_mem k ms = None /\ stray_at t p k = Nowhere.

(** The calls; an Insert is none of them (C10). *)
Definition settled (t : jv) (o : op) : Prop :=
  match o with
  | OSet p v => p <> [] /\ wf v = true
  | ODelete q x => True
  | OAdd p v => wf v = true
  | OAddKV p k v => wf v = true /\ str_ok k = true /\ (free_key t p k \/ exists w, lookup t p = Some (JObj w []))
  | OSetKey q x k => str_ok k = true /\ k <> [] /\ free_key t q k
  | OStore p k v => wf v = true /\ str_ok k = true /\ (lookup t (p ++ [k]) <> None \/ free_key t p k)
  | OInsert _ _ _ => False
  end.

(** A history of such calls: each is one on some tree of the content reached. *)
Inductive settled_from : jd -> list op -> jd -> Prop :=
| SF_nil : forall c, settled_from c [] c
| SF_cons : forall c o ops c1 c2 t, content t = c -> settled t o -> meaning o c = Some c1 -> settled_from c1 ops c2 -> settled_from c (o :: ops) c2.

(** The texts a callback is shown: of two values of the same content, strings without their quotes. *)
Definition shown_alike (x x' : bytes) : Prop :=
  exists u u', wf u = true /\ wf u' = true /\ content u = content u' /\ x = bare u /\ x' = bare u'.
