(** Values given as strings and numbers: what is written for them. *)
From Verif Require Import GoStd Json Spec.

Local Open Scope N_scope.

(** A simple value: a token or a string. *)
Definition simple (v : jv) (s : bytes) : Prop := (v = JScalar s \/ v = JString s) /\ wf v = true.

(** The digits of bases up to 36. *)
Definition digit_val (c : N) : N := if c <? 58 then c - 48 else c - 87.

(** The number a digit string denotes in a base, starting from [a]. *)
Fixpoint denote (base a : N) (s : bytes) : N :=
  match s with [] => a | c :: r => denote base (a * base + digit_val c) r end.

(** Surrounded by matching brackets. *)
Definition fenced (s : bytes) : bool :=
  ((hd 0 s =? 91) && (last s 0 =? 93)) || ((hd 0 s =? 123) && (last s 0 =? 125)).

(** The text is that of a well-formed document with the given content. *)
Definition denotes (t : bytes) (c : jd) : Prop := exists d, wf_doc d = true /\ text d = t /\ content (d_val d) = c.

(** A string that can be written without escaping and is not taken for bracketed text. *)
Definition fit (pf : bytes -> bool) (s : bytes) : Prop :=
  str_ok s = true /\ (pf s = true -> scalar_ok s = true) /\ fenced s = false.

(** Written as a token or as a string. *)
Definition written (s : bytes) (c : jd) : Prop := c = DScalar s \/ c = DString s.

(** Keys a scheme can have: no two the same, none empty, none that needs escaping. *)
Definition usable (ks : list bytes) : Prop := NoDup ks /\ Forall (fun k => k <> [] /\ str_ok k = true) ks.
