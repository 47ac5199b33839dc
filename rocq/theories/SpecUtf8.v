(** Specification for C75: texts in UTF-8.  Nothing here refers to the model. *)
From Coq Require Import String.
From Verif Require Export GoStd.

Local Open Scope N_scope.

(** Unicode scalar values, and the bytes of one (RFC 3629, section 3) *)
Definition scalar_value (c : N) : Prop := c < 55296 \/ 57344 <= c < 1114112.
Definition encode (c : N) : bytes :=
  if c <? 128 then [c]
  else if c <? 2048 then [192 + c / 64; 128 + c mod 64]
  else if c <? 65536 then [224 + c / 4096; 128 + (c / 64) mod 64; 128 + c mod 64]
  else [240 + c / 262144; 128 + (c / 4096) mod 64; 128 + (c / 64) mod 64; 128 + c mod 64].
Definition utf8 (s : bytes) : Prop := exists cs, Forall scalar_value cs /\ s = flat_map encode cs.
