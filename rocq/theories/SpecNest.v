(** Words for what a Parser's Get answers after an update. *)
From Coq Require Import String.
From Verif Require Import GoStd Json Spec Focus Errors Api Iter SpecParser Parser.

Local Open Scope N_scope.

(** Two paths that part at some place. *)
Definition parted (q r : list bytes) : Prop := exists c x y q' r', q = c ++ x :: q' /\ r = c ++ y :: r' /\ x <> y.

(** Below [q] there is one key, "0", with the container; [barren]: nothing. *)
Definition sunk (p : parser) (q : list bytes) (v : jv) : Prop :=
  (forall r u, lookup v r = Some u -> straight v r = true -> P_Get p (q ++ b "0" :: r) = Ok (bare u)) /\
  (forall x r, x <> b "0" -> P_Get p (q ++ x :: r) = Err (EKeyNotFound x)).
Definition barren (p : parser) (q : list bytes) : Prop := forall x r, P_Get p (q ++ x :: r) = Err (EKeyNotFound x).

(** Get answers what the text of the parser has at [a] now (trimmed of blanks and quotes, as Get of the parser does). *)
Definition asked_again (p : parser) (a : list bytes) : Prop := exists w, Get (p_json p) a = Ok w /\ P_Get p a = cleanValue w.

(** GetNew shows the container once more inside one of its kind; [fresh] is what GetNew of a new parser shows. *)
Definition doubled (p : parser) (q : list bytes) (v : jv) : Prop :=
  forall pv fresh, Parse (render v) = Ok pv -> P_GetNew pv [] = Ok fresh ->
  P_GetNew p q = Ok (match v with JArr _ _ => 91 :: fresh ++ [93] | _ => b "{""0"":" ++ fresh ++ [125] end).
