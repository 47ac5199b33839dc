(** Specification: what the numbers of RFC 8259 (section 6) denote, and which float64 is nearest to a fraction.
    Nothing in this file refers to the model of the code or to the rounding of GoFloat.v. *)
From Coq Require Import String.
From Verif Require Import GoStd Rfc.

Local Open Scope N_scope.

(** ** The parts of a number *)
Record number : Type := Number {
  n_neg : bool;                              (* a minus in front *)
  n_int : bytes;                             (* the digits before the point *)
  n_frac : option bytes;                     (* the digits behind the point, if there is one *)
  n_exp : option (N * bytes * bytes)         (* the letter, the sign and the digits of the exponent *)
}.

Definition number_text (x : number) : bytes :=
  (if n_neg x then [45] else []) ++ n_int x ++
  match n_frac x with Some f => 46 :: f | None => [] end ++
  match n_exp x with Some (l, sg, e) => l :: sg ++ e | None => [] end.

Definition number_wf (x : number) : bool :=
  digits1 (n_int x) && (negb (hd 0 (n_int x) =? 48) || (length (n_int x) =? 1)%nat) &&
  match n_frac x with Some f => digits1 f | None => true end &&
  match n_exp x with
  | Some (l, sg, e) => ((l =? 101) || (l =? 69)) && (bytes_eqb sg [] || bytes_eqb sg [43] || bytes_eqb sg [45]) && digits1 e
  | None => true
  end.

(** ** What it denotes: [n]/[d], with the sign apart *)
Fixpoint decimal (acc : N) (s : bytes) : N := match s with [] => acc | c :: r => decimal (acc * 10 + (c - 48)) r end.
Definition frac_digits (x : number) : bytes := match n_frac x with Some f => f | None => [] end.
Definition exponent_of (x : number) : Z :=
  match n_exp x with
  | Some (_, sg, e) => if bytes_eqb sg [45] then (- Z.of_N (decimal 0 e))%Z else Z.of_N (decimal 0 e)
  | None => 0%Z
  end.
Definition scale (x : number) : Z := (exponent_of x - Z.of_nat (length (frac_digits x)))%Z.
Definition numerator (x : number) : N := decimal 0 (n_int x ++ frac_digits x) * 10 ^ Z.to_N (scale x).
Definition denominator (x : number) : N := 10 ^ Z.to_N (- scale x).

(** ** The nearest float64

    A finite float64 is m * 2^u * 2^-1074 with m < 2^53, u <= 2045, and 2^52 <= m unless u is 0. *)
Definition is_float64 (m u : N) : Prop := m < 2 ^ 53 /\ u <= 2045 /\ (2 ^ 52 <= m \/ u = 0).

(** The distance from n/d, times d * 2^1074. *)
Definition off_by (n d m u : N) : Z := Z.abs (Z.of_N (m * 2 ^ u * d) - Z.of_N (n * 2 ^ 1074)).

(** None is nearer, and where another one is as near the mantissa is even. *)
Definition nearest (n d m u : N) : Prop :=
  is_float64 m u /\
  forall m' u', is_float64 m' u' ->
    (off_by n d m u <= off_by n d m' u')%Z /\ (off_by n d m u = off_by n d m' u' -> (m', u') = (m, u) \/ N.even m = true).

(** At least half a unit beyond the largest float64. *)
Definition too_large (n d : N) : Prop := (2 ^ 54 - 1) * 2 ^ 2044 * d <= n * 2 ^ 1074.
