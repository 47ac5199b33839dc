(** Model of strconv.ParseFloat(s, 64) of Go's standard library (Go 1.13 to 1.15 and later), as far as jin uses
    it: which strings are accepted, and which float64 they stand for.

    The syntax follows [readFloat], [special] and [underscoreOK] of strconv/atof.go and strconv/atoi.go: decimal
    and hexadecimal numerals, digits separated by underscores, and the names of the infinities and of NaN.  The
    value is rounded to the nearest float64, ties to the even mantissa, as the documentation of ParseFloat says;
    how the library computes it is not modelled.  A value that rounds beyond the largest float64 is refused with
    ErrRange. *)
From Coq Require Import String.
From Verif Require Export GoStd.
From Verif Require Import SpecNumber.

Local Open Scope N_scope.

(** A float64.  [Fin neg m u] is (-1)^neg * m * 2^u * 2^-1074: [m] is the mantissa with its leading bit, and [u] is
    the exponent counted from the one of the smallest number. *)
Inductive float64 : Type := Fin (neg : bool) (m u : N) | Inf (neg : bool) | NaN.

(** The finite numbers that there are: 53 bits, and the leading bit is set except at the lowest exponent. *)
Definition finite_ok (m u : N) : bool := (m <? 2 ^ 53) && (u <=? 2045) && ((2 ^ 52 <=? m) || (u =? 0)).

(** The fraction [n]/[d] as a multiple of 2^-1074, rounded to 53 bits; [None] is an overflow. *)
Definition round64 (n d : N) : option (N * N) :=
  let v := n * 2 ^ 1074 in
  let u := N.log2 (v / d) - 52 in
  let c := d * 2 ^ u in
  let q := v / c in
  let r := v mod c in
  let m := if (2 * r <? c) || ((2 * r =? c) && N.even q) then q else q + 1 in
  let '(m, u) := if m =? 2 ^ 53 then (2 ^ 52, u + 1) else (m, u) in
  if u <=? 2045 then Some (m, u) else None.

(** [m] * [base]^[e] *)
Definition scaled (base m : N) (e : Z) : option (N * N) :=
  if (0 <=? e)%Z then round64 (m * base ^ Z.to_N e) 1 else round64 m (base ^ Z.to_N (- e)).

(** strconv's [lower] *)
Definition lower (c : N) : N := N.lor c 32.

Definition dec_digit (c : N) : bool := (48 <=? c) && (c <=? 57).
Definition hex_letter (c : N) : bool := (97 <=? lower c) && (lower c <=? 102).

(** The loop over the digits in [readFloat]: have digits been seen, has an underscore been seen, the number made of
    the digits, how many of them are behind the point, and what is left. *)
Fixpoint mantissa (hex sawdot sawdigits underscores : bool) (m f : N) (s : bytes) : bool * bool * N * N * bytes :=
  match s with
  | [] => (sawdigits, underscores, m, f, [])
  | c :: r =>
      if c =? 95 then mantissa hex sawdot sawdigits true m f r
      else if c =? 46 then if sawdot then (sawdigits, underscores, m, f, s) else mantissa hex true sawdigits underscores m f r
      else if dec_digit c then
        mantissa hex sawdot true underscores (m * (if hex then 16 else 10) + (c - 48)) (if sawdot then f + 1 else f) r
      else if hex && hex_letter c then
        mantissa hex sawdot true underscores (m * 16 + (lower c - 87)) (if sawdot then f + 1 else f) r
      else (sawdigits, underscores, m, f, s)
  end.

(** The loop over the digits of the exponent; they stop counting at 10000. *)
Fixpoint exponent (underscores : bool) (e : N) (s : bytes) : bool * N * bytes :=
  match s with
  | [] => (underscores, e, [])
  | c :: r =>
      if c =? 95 then exponent true e r
      else if dec_digit c then exponent underscores (if e <? 10000 then e * 10 + (c - 48) else e) r
      else (underscores, e, s)
  end.

(** The optional sign; the flag tells a minus. *)
Definition sign (s : bytes) : bool * bytes :=
  match s with
  | c :: r => if c =? 43 then (false, r) else if c =? 45 then (true, r) else (false, s)
  | [] => (false, s)
  end.

(** [underscoreOK]: an underscore stands between digits, or between the base prefix and a digit.  [saw] is the kind
    of the last character: 48 a digit, 95 an underscore, 33 something else. *)
Fixpoint underscores_ok (hex : bool) (saw : N) (s : bytes) : bool :=
  match s with
  | [] => negb (saw =? 95)
  | c :: r =>
      if dec_digit c || (hex && hex_letter c) then underscores_ok hex 48 r
      else if c =? 95 then (saw =? 48) && underscores_ok hex 95 r
      else negb (saw =? 95) && underscores_ok hex 33 r
  end.
Definition underscoreOK (s : bytes) : bool :=
  let s := snd (sign s) in
  match s with
  | z :: x :: r =>
      if (z =? 48) && ((lower x =? 98) || (lower x =? 111) || (lower x =? 120)) then underscores_ok (lower x =? 120) 48 r
      else underscores_ok false 94 s
  | _ => underscores_ok false 94 s
  end.

(** The prefix 0x, with something behind it. *)
Definition hex_prefix (s : bytes) : bool * bytes :=
  match s with
  | z :: x :: y :: r => if (z =? 48) && (lower x =? 120) then (true, y :: r) else (false, s)
  | _ => (false, s)
  end.

(** [readFloat] on the whole string: the sign, the base of the scale, the digits and the exponent of the scale.
    [s0] is the string with its sign, for [underscoreOK]. *)
Definition readFloat (s0 : bytes) : option (bool * N * N * Z) :=
  let '(neg, s) := sign s0 in
  let '(hex, s) := hex_prefix s in
  let '(sawdigits, us, m, f, s) := mantissa hex false false false 0 0 s in
  if negb sawdigits then None
  else
    let f := if hex then f * 4 else f in
    let done us e := if us && negb (underscoreOK s0) then None
                     else Some (neg, if hex then 2 else 10, m, (e - Z.of_N f)%Z) in
    match s with
    | [] => if hex then None else done us 0%Z
    | c :: r =>
        if lower c =? (if hex then 112 else 101) then
          let '(eneg, r) := sign r in
          match r with
          | c :: _ =>
              if dec_digit c then
                let '(us, e, rest) := exponent us 0 r in
                match rest with
                | [] => done us (if eneg then - Z.of_N e else Z.of_N e)%Z
                | _ => None
                end
              else None
          | [] => None
          end
        else None
    end.

(** [special]: NaN, and inf or infinity with an optional sign, in any mixture of upper and lower case. *)
Definition fold_case (c : N) : N := if (65 <=? c) && (c <=? 90) then c + 32 else c.
Definition special (s : bytes) : option float64 :=
  let t := map fold_case s in
  if bytes_eqb t (b "nan") then Some NaN
  else if existsb (bytes_eqb t) [b "inf"; b "infinity"; b "+inf"; b "+infinity"] then Some (Inf false)
  else if existsb (bytes_eqb t) [b "-inf"; b "-infinity"] then Some (Inf true)
  else None.

(** strconv.ParseFloat(s, 64) when the error is nil. *)
Definition ParseFloat (s : bytes) : option float64 :=
  match special s with
  | Some x => Some x
  | None =>
      match readFloat s with
      | Some (neg, base, m, e) => match scaled base m e with Some (m, u) => Some (Fin neg m u) | None => None end
      | None => None
      end
  end.
(** Is the error nil? *)
Definition float_ok (s : bytes) : bool := match ParseFloat s with Some _ => true | None => false end.

(** strconv.FormatFloat(x, 'f', -1, 64) writes a decimal numeral without an exponent from which ParseFloat gets [x]
    back; that it is the shortest one is not needed.  [formats x t]: [t] may be that text. *)
Definition formats (x : float64) (t : bytes) : Prop :=
  ParseFloat t = Some x /\
  match x with
  | Fin neg m u => exists y, number_wf y = true /\ n_exp y = None /\ n_neg y = neg /\ number_text y = t
  | Inf neg => t = if neg then b "-Inf" else b "+Inf"
  | NaN => t = b "NaN"
  end.
