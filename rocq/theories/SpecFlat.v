(** Documents without insignificant whitespace (C77).  Trees and contents only. *)
From Coq Require Import String.
From Verif Require Import GoStd Json Ops.

(** The tree of a content without a blank anywhere, and its text. *)
Fixpoint tree (c : jd) : jv :=
  match c with
  | DScalar s => JScalar s
  | DString s => JString s
  | DArr cs => JArr [] (map (fun c => Elem [] (tree c) []) cs)
  | DObj ms => JObj [] (map (fun m => Mem [] (fst m) [] [] (tree (snd m)) []) ms)
  end.
Definition flat (c : jd) : bytes := render (tree c).

(** What a reader gets of a value: the text, of a string without its quotes. *)
Definition shown (c : jd) : bytes := match c with DString s => s | _ => flat c end.

(** The calls whose values have no blanks either. *)
Definition flat_op (o : op) : Prop :=
  match o with
  | OSet _ v | OAdd _ v | OAddKV _ _ v | OInsert _ _ v | OStore _ _ v => render v = flat (content v)
  | ODelete _ _ | OSetKey _ _ _ => True
  end.

(** Set, Delete, Add and Insert, with well-formed values. *)
Definition array_op (o : op) : Prop :=
  match o with
  | OSet p v => p <> [] /\ wf v = true
  | ODelete _ _ => True
  | OAdd _ v => wf v = true
  | OInsert _ z v => wf v = true /\ (z <= int64_max)%Z
  | _ => False
  end.
