(** Specification: the grammar of JSON texts of RFC 8259, over bytes (section numbers are the RFC's).  The
    encoding is not looked at: any byte from 128 up may stand in a string.

    Nothing in this file refers to the model of the code.  RfcProofs.v relates the grammar to the trees of
    Json.v: every text of the grammar is the text of a well-formed document, so the theorems about
    well-formed documents apply to all JSON texts. *)
From Coq Require Import String.
From Verif Require Import GoStd Json.

Local Open Scope N_scope.

(** ** Numbers (section 6): an optional minus, an integer part without superfluous leading zeros, an optional
    fraction, an optional exponent. *)
Definition digit (c : N) : bool := (48 <=? c) && (c <=? 57).

Fixpoint drop_digits (s : bytes) : bytes :=
  match s with
  | c :: r => if digit c then drop_digits r else s
  | [] => []
  end.

(** At least one digit and nothing else. *)
Definition digits1 (s : bytes) : bool := match s with c :: r => digit c && forallb digit r | [] => false end.

Definition exp_ok (s : bytes) : bool :=
  match s with
  | [] => true
  | c :: r => ((c =? 101) || (c =? 69)) &&
              match r with
              | d :: r' => if (d =? 43) || (d =? 45) then digits1 r' else digits1 r
              | [] => false
              end
  end.

Definition frac_ok (s : bytes) : bool :=
  match s with
  | 46 :: c :: r => digit c && exp_ok (drop_digits r)
  | _ => exp_ok s
  end.

Definition unsigned_ok (s : bytes) : bool :=
  match s with
  | [] => false
  | c :: r => if c =? 48 then frac_ok r else digit c && frac_ok (drop_digits r)
  end.

Definition number_ok (s : bytes) : bool :=
  match s with
  | c :: r => if c =? 45 then unsigned_ok r else unsigned_ok s
  | [] => false
  end.

Definition literal (s : bytes) : bool := bytes_eqb s (b "true") || bytes_eqb s (b "false") || bytes_eqb s (b "null").

(** ** Strings (section 7) *)
Definition hex (c : N) : bool := digit c || ((65 <=? c) && (c <=? 70)) || ((97 <=? c) && (c <=? 102)).
Definition short_escape (c : N) : bool :=
  (c =? 34) || (c =? 92) || (c =? 47) || (c =? 98) || (c =? 102) || (c =? 110) || (c =? 114) || (c =? 116).

Fixpoint chars (s : bytes) : bool :=
  match s with
  | [] => true
  | c :: r =>
      if c =? 92 then
        match r with
        | x :: r' =>
            if short_escape x then chars r'
            else if x =? 117 then
              match r' with
              | h1 :: h2 :: h3 :: h4 :: r'' => hex h1 && hex h2 && hex h3 && hex h4 && chars r''
              | _ => false
              end
            else false
        | [] => false
        end
      else negb (c <? 32) && negb (c =? 34) && chars r
  end.

(** ** Values, arrays and objects (sections 2 to 5) *)
Inductive value : bytes -> Prop :=
| V_literal s : literal s = true -> value s
| V_number s : number_ok s = true -> value s
| V_string s : chars s = true -> value (34 :: s ++ [34])
| V_array0 w : ws_ok w = true -> value (91 :: w ++ [93])
| V_array s : elements s -> value (91 :: s ++ [93])
| V_object0 w : ws_ok w = true -> value (123 :: w ++ [125])
| V_object s : members s -> value (123 :: s ++ [125])
with elements : bytes -> Prop :=
| E_last w1 s w2 : ws_ok w1 = true -> value s -> ws_ok w2 = true -> elements (w1 ++ s ++ w2)
| E_more w1 s w2 r : ws_ok w1 = true -> value s -> ws_ok w2 = true -> elements r ->
    elements ((w1 ++ s ++ w2) ++ 44 :: r)
with members : bytes -> Prop :=
| M_last m : member m -> members m
| M_more m r : member m -> members r -> members (m ++ 44 :: r)
with member : bytes -> Prop :=
| M_pair w1 k w2 w3 s w4 : ws_ok w1 = true -> chars k = true -> ws_ok w2 = true -> ws_ok w3 = true ->
    value s -> ws_ok w4 = true ->
    member (w1 ++ 34 :: k ++ 34 :: w2 ++ 58 :: w3 ++ s ++ w4).

Definition json_text (t : bytes) : Prop :=
  exists w1 s w2, t = w1 ++ s ++ w2 /\ ws_ok w1 = true /\ value s /\ ws_ok w2 = true.

(** ** The same as a test on abstract documents *)
Fixpoint strict (c : jd) : bool :=
  match c with
  | DScalar s => literal s || number_ok s
  | DString s => chars s
  | DArr ds => forallb strict ds
  | DObj ms => forallb (fun kv => chars (fst kv) && strict (snd kv)) ms
  end.
