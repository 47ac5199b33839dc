(** Which errors a lookup may answer (C56). *)
From Verif Require Import GoStd Errors.

(** A lookup names a key of its path, or says what is wrong with an index or the text. *)
Definition lookup_error (p : list bytes) (e : err) : Prop :=
  match e with
  | EKeyNotFound x => In x p
  | EBadJSON _ | EIndexExpected | EIndexOutOfRange | EEmptyArray => True
  | _ => False
  end.

(** The errors that are not about the value the path leads to. *)
Definition early (e : err) : bool :=
  match e with EKeyNotFound _ | EIndexExpected | EIndexOutOfRange => true | _ => false end.

Definition not_found (e : err) : bool := match e with EKeyNotFound _ => true | _ => false end.
