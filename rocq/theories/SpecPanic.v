(** Specification for C34: texts on which a scanner cannot run off the end. *)
From Verif Require Export GoStd Json.

Local Open Scope N_scope.

(** The last non-blank byte exists and is none of [: , [ {]: whatever precedes it, something follows every
    colon, comma and open bracket.  Every document is such a text (see [C34_documents_complete]); so is much that
    is not JSON. *)
Definition complete (json : bytes) : Prop :=
  exists l c w, json = l ++ c :: w /\ ws_ok w = true /\ is_ws c = false /\ ~ In c [58; 44; 91; 123].

(** [x] begins the text [json]. *)
Definition begins (x json : bytes) : Prop := exists r, json = x ++ r.
