(** Which calls on a Parser must be refused, and with which error. *)
From Coq Require Import String.
From Verif Require Import GoStd Json Spec Focus Errors SpecParser Parser.

Local Open Scope N_scope.

(** The call returns the error and leaves the parser as it was. *)
Definition refused (p : parser) (r : pres) (e : err) : Prop := r = PRet p (Some e).

(** Values that are not objects (arrays), nor strings that read like one: the Parser looks at the text without quotes. *)
Definition reads_like (o c : N) (s : bytes) : bool := (hd 0 s =? o) && (last s 0 =? c).
Definition not_object (v : jv) : bool :=
  match v with JObj _ _ => false | JString s => negb (reads_like 123 125 s) | _ => true end.
Definition not_array (v : jv) : bool :=
  match v with JArr _ _ => false | JString s => negb (reads_like 91 93 s) | _ => true end.

(** Values written with at most one byte are not even looked at. *)
Definition kind_error (v : jv) (e : err) : err := if (2 <=? length (bare v))%nat then e else EBadJSON 0.

(** Nothing of this name where AddKeyValue looks for the key: beside the object, or in it at the root. *)
Definition unheld (v : jv) (q : list bytes) (k : bytes) : Prop := forall u, lookup v (removelast q) = Some u -> child u k = None.

(** What a parser that holds [d] refuses. *)
Definition refuses_missing (p : parser) (d : doc) : Prop :=
  forall q, fits (text d) -> lookup (d_val d) q = None ->
    exists q0 x r, q = q0 ++ x :: r /\ lookup (d_val d) q0 <> None /\ (straight (d_val d) q = true -> lookup (d_val d) (q0 ++ [x]) = None) /\
      (forall new, refused p (P_Set p new q) (EKeyNotFound x)) /\
      (forall k, k <> [] -> refused p (P_SetKey p k q) (EKeyNotFound x)) /\
      refused p (P_Delete p q) (EKeyNotFound x) /\
      (forall new, new <> [] -> refused p (P_Add p new q) (EKeyNotFound x)) /\
      (forall k new, k <> [] -> refused p (P_AddKeyValue p k new q) (EKeyNotFound x)) /\
      (forall z new, new <> [] -> refused p (P_Insert p z new q) (EKeyNotFound x)).
Definition refuses_taken (p : parser) (d : doc) : Prop :=
  (forall q x k w ms, lookup (d_val d) q = Some (JObj w ms) -> straight (d_val d) (q ++ [x]) = true ->
     k <> [] -> In x (map m_key ms) -> In k (map m_key ms) -> refused p (P_SetKey p k (q ++ [x])) (EKeyAlreadyExist k)) /\
  (forall k w ms new, d_val d = JObj w ms -> k <> [] -> In k (map m_key ms) -> refused p (P_AddKeyValue p k new []) (EKeyAlreadyExist k)).
Definition refuses_kind (p : parser) (d : doc) : Prop :=
  forall q v, lookup (d_val d) q = Some v -> straight (d_val d) q = true -> (q = [] -> container v = true) ->
    (forall k new, fits (text d) -> not_object v = true -> k <> [] -> unheld (d_val d) q k ->
       refused p (P_AddKeyValue p k new q) (kind_error v EObjectExpected)) /\
    (forall new, not_array v = true -> new <> [] -> refused p (P_Add p new q) (kind_error v EArrayExpected)) /\
    (forall z new, not_array v = true -> new <> [] -> refused p (P_Insert p z new q) (kind_error v EArrayExpected)).
Definition refuses_index (p : parser) (d : doc) : Prop :=
  forall q w els z new, lookup (d_val d) q = Some (JArr w els) -> straight (d_val d) q = true ->
    (q = [] -> d_pre d = [] /\ d_post d = []) -> wf new = true -> (Z.of_nat (length els) <= z)%Z ->
    refused p (P_Insert p z (render new) q) EIndexOutOfRange.
Definition refuses (p : parser) (d : doc) : Prop :=
  refuses_missing p d /\ refuses_taken p d /\ refuses_kind p d /\ refuses_index p d.
