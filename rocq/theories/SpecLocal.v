(** What a lookup may depend on: the text up to the end of the addressed value. *)
From Verif Require Import GoStd Json Focus.

Local Open Scope N_scope.

(** A bare token (number, true, false, null) is over when a blank, a comma or a closing bracket follows. *)
Definition delimited (rest : bytes) : bool :=
  match rest with c :: _ => is_ws c || (c =? 44) || (c =? 93) || (c =? 125) | [] => false end.

(** Strings, arrays and objects carry their own end; whatever follows them, even nothing, is irrelevant. *)
Definition over (v : jv) (rest : bytes) : Prop :=
  match v with JScalar _ => delimited rest = true | _ => True end.

(** [opens d p v before]: in document [d] the path [p] leads to [v], whose text begins after [before]. *)
Definition opens (d : doc) (p : list bytes) (v : jv) (before : bytes) : Prop :=
  exists pre post, focus (d_val d) p pre v post /\ before = d_pre d ++ pre.

(** [q] is a text that breaks off inside [v]: a beginning of its text, not all of it - for a bare token all of it
    is not enough either, since nothing says that it is over. *)
Definition broken (v : jv) (q : bytes) : Prop :=
  q <> [] /\ exists q', render v = q ++ q' /\ match v with JScalar _ => True | _ => q' <> [] end.
