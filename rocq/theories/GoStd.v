(** Go language and standard-library pieces used by the model: byte slices, indexing with
    an explicit panic, strconv.Atoi / Itoa, and the error values of errors.go. *)
From Coq Require Import String Ascii Decimal DecimalN DecimalFacts.
From Coq Require Export List NArith ZArith Arith Lia Bool.
Export ListNotations.

(** A Go [[]byte] or [string]: a finite list of byte values.  Values >= 256 are allowed, which is a
    superset of Go's bytes. *)
Notation bytes := (list N).

(** Literals for examples: [b "abc"] is the byte list of the string. *)
Definition b (s : string) : bytes := map N_of_ascii (list_ascii_of_string s).

Fixpoint bytes_eqb (x y : bytes) : bool :=
  match x, y with
  | [], [] => true
  | a :: x', c :: y' => N.eqb a c && bytes_eqb x' y'
  | _, _ => false
  end.

(** ** Errors: errors.go:8-27 (codes) and errors.go:45-133 (constructors). *)
Inductive err : Type :=
| ENullPath                      (* errors.go:46 *)
| EEmptyArray                    (* errors.go:51 *)
| EIndexExpected                 (* errors.go:56 *)
| EObjectExpected                (* errors.go:61 *)
| EArrayExpected                 (* errors.go:66 *)
| EIndexOutOfRange               (* errors.go:71 *)
| EKeyNotFound (key : bytes)     (* errors.go:76 *)
| EBadJSON (pos : nat)           (* errors.go:81 *)
| EKeyAlreadyExist (key : bytes) (* errors.go:86 *)
| EIntegerParse (v : bytes)      (* errors.go:91 *)
| EFloatParse (v : bytes)        (* errors.go:96 *)
| EBoolParse (v : bytes)         (* errors.go:101 *)
| EStringArrayParse (v : bytes)  (* errors.go:106 *)
| EIntegerArrayParse (v : bytes) (* errors.go:111 *)
| EFloatArrayParse (v : bytes)   (* errors.go:116 *)
| EBoolArrayParse (v : bytes)    (* errors.go:121 *)
| ENullKey                       (* errors.go:126 *)
| EEmpty                         (* errors.go:131 *)
| EUser (msg : bytes).           (* an error made by the caller (callbacks), with its text *)

(** Result of a Go computation: a value, a returned error, or a run-time panic
    (index or slice bounds out of range, nil dereference, negative make, ...). *)
Inductive res (A : Type) : Type :=
| Ok (a : A)
| Err (e : err)
| Panic.
Arguments Ok {A} a.
Arguments Err {A} e.
Arguments Panic {A}.

Definition bind {A B : Type} (r : res A) (f : A -> res B) : res B :=
  match r with Ok a => f a | Err e => Err e | Panic => Panic end.

Declare Scope go_scope.
Delimit Scope go_scope with go.
Notation "'do' x <- r ; k" := (bind r (fun x => k))
  (at level 200, x name, r at level 100, k at level 200) : go_scope.
Notation "'do' ' p <- r ; k" := (bind r (fun p => k))
  (at level 200, p pattern, r at level 100, k at level 200) : go_scope.
Open Scope go_scope.

(** [json[i]]: panics when out of range. *)
Definition at_ (json : bytes) (i : nat) : res N :=
  match nth_error json i with Some c => Ok c | None => Panic end.

(** [json[i-1]] for an [int] i: panics also when i = 0. *)
Definition at_pred (json : bytes) (i : nat) : res N :=
  match i with O => Panic | S p => at_ json p end.

(** [json[s:e]] (a slice whose capacity equals its length): panics unless s <= e <= len. *)
Definition slice (json : bytes) (s e : nat) : res bytes :=
  if (s <=? e) && (e <=? length json) then Ok (firstn (e - s) (skipn s json)) else Panic.

(** ** strconv *)

(** Decimal digit string to the standard library's decimal numbers, most significant first. *)
Fixpoint uint_of_bytes (s : bytes) : option Decimal.uint :=
  match s with
  | [] => Some Decimal.Nil
  | c :: r =>
    match uint_of_bytes r with
    | None => None
    | Some u =>
      match c with
      | 48%N => Some (D0 u) | 49%N => Some (D1 u) | 50%N => Some (D2 u) | 51%N => Some (D3 u)
      | 52%N => Some (D4 u) | 53%N => Some (D5 u) | 54%N => Some (D6 u) | 55%N => Some (D7 u)
      | 56%N => Some (D8 u) | 57%N => Some (D9 u) | _ => None
      end
    end
  end.

Fixpoint bytes_of_uint (u : Decimal.uint) : bytes :=
  match u with
  | Decimal.Nil => []
  | D0 u => 48%N :: bytes_of_uint u | D1 u => 49%N :: bytes_of_uint u
  | D2 u => 50%N :: bytes_of_uint u | D3 u => 51%N :: bytes_of_uint u
  | D4 u => 52%N :: bytes_of_uint u | D5 u => 53%N :: bytes_of_uint u
  | D6 u => 54%N :: bytes_of_uint u | D7 u => 55%N :: bytes_of_uint u
  | D8 u => 56%N :: bytes_of_uint u | D9 u => 57%N :: bytes_of_uint u
  end.

(** An optional sign followed by at least one decimal digit and nothing else; the integer it denotes. *)
Definition parse_digits (s : bytes) : option N :=
  match s with
  | [] => None
  | _ => match uint_of_bytes s with Some u => Some (N.of_uint u) | None => None end
  end.

Definition parse_signed (s : bytes) : option Z :=
  match s with
  | 43%N :: r => option_map Z.of_N (parse_digits r)
  | 45%N :: r => option_map (fun n => Z.opp (Z.of_N n)) (parse_digits r)
  | _ => option_map Z.of_N (parse_digits s)
  end.

Definition int64_min : Z := (- 2 ^ 63)%Z.
Definition int64_max : Z := (2 ^ 63 - 1)%Z.
Definition in_int64 (z : Z) : bool := (int64_min <=? z)%Z && (z <=? int64_max)%Z.

(** strconv.ParseInt(s, 10, bits): None models a non-nil error (syntax or range). *)
Definition parse_int (bits : Z) (s : bytes) : option Z :=
  match parse_signed s with
  | Some z => if ((- 2 ^ (bits - 1) <=? z)%Z && (z <=? 2 ^ (bits - 1) - 1)%Z) then Some z else None
  | None => None
  end.

(** strconv.Atoi on a 64-bit platform. *)
Definition atoi (s : bytes) : option Z := parse_int 64 s.

(** strconv.Itoa / FormatInt(_, 10). *)
Definition itoa_N (n : N) : bytes := bytes_of_uint (N.to_uint n).
Definition itoa (z : Z) : bytes :=
  if (z <? 0)%Z then 45%N :: itoa_N (Z.to_N (- z)) else itoa_N (Z.to_N z).

(** ** Basic facts *)

Lemma bytes_eqb_spec x y : reflect (x = y) (bytes_eqb x y).
Proof.
  revert y; induction x as [|a x IH]; intros [|c y]; simpl; try (constructor; congruence).
  destruct (N.eqb_spec a c) as [->|Hn]; simpl; [|constructor; congruence].
  destruct (IH y) as [->|Hn]; constructor; congruence.
Qed.

Lemma bytes_eqb_refl x : bytes_eqb x x = true.
Proof. destruct (bytes_eqb_spec x x); congruence. Qed.

Lemma bytes_eqb_eq x y : bytes_eqb x y = true <-> x = y.
Proof. destruct (bytes_eqb_spec x y); split; congruence. Qed.

Lemma bytes_eqb_neq x y : bytes_eqb x y = false <-> x <> y.
Proof. destruct (bytes_eqb_spec x y); split; congruence. Qed.

Lemma uint_of_bytes_of_uint u : uint_of_bytes (bytes_of_uint u) = Some u.
Proof. induction u; cbn; rewrite ?IHu; reflexivity. Qed.

Lemma bytes_of_uint_nil u : bytes_of_uint u = [] -> u = Decimal.Nil.
Proof. destruct u; cbn; congruence. Qed.

Lemma to_uint_nonnil n : N.to_uint n <> Decimal.Nil.
Proof.
  intro H. pose proof (DecimalN.Unsigned.of_to n) as H1. rewrite H in H1. cbn in H1.
  subst n. cbn in H. discriminate H.
Qed.

Lemma parse_digits_itoa_N n : parse_digits (itoa_N n) = Some n.
Proof.
  unfold parse_digits, itoa_N. rewrite uint_of_bytes_of_uint, DecimalN.Unsigned.of_to.
  destruct (bytes_of_uint (N.to_uint n)) eqn:E; [|reflexivity].
  apply bytes_of_uint_nil in E. exfalso. exact (to_uint_nonnil n E).
Qed.

Lemma bytes_of_uint_digits u : forall c, In c (bytes_of_uint u) -> (48 <= c <= 57)%N.
Proof.
  induction u; cbn; intros c H; [contradiction|..];
    (destruct H as [<-|H]; [lia | exact (IHu c H)]).
Qed.

Lemma itoa_N_digits n c : In c (itoa_N n) -> (48 <= c <= 57)%N.
Proof. apply bytes_of_uint_digits. Qed.

Lemma itoa_N_nonnil n : itoa_N n <> [].
Proof. intro H. apply bytes_of_uint_nil in H. exact (to_uint_nonnil n H). Qed.

Lemma parse_signed_itoa z : parse_signed (itoa z) = Some z.
Proof.
  unfold itoa. destruct (Z.ltb_spec z 0) as [Hz|Hz].
  - cbn [parse_signed]. rewrite parse_digits_itoa_N. cbn [option_map]. f_equal. lia.
  - pose proof (parse_digits_itoa_N (Z.to_N z)) as Hp.
    destruct (itoa_N (Z.to_N z)) as [|c r] eqn:E; [exfalso; exact (itoa_N_nonnil _ E)|].
    assert (Hc : (48 <= c <= 57)%N).
    { apply (itoa_N_digits (Z.to_N z)). rewrite E. left; reflexivity. }
    unfold parse_signed.
    assert (Hr : forall T (x y z0 : T), match c with 43%N => x | 45%N => y | _ => z0 end = z0).
    { intros T x y z0. assert (c <> 43)%N by lia. assert (c <> 45)%N by lia.
      destruct c as [|p]; [reflexivity|].
      do 6 (destruct p as [p|p|]; try reflexivity); congruence. }
    rewrite Hr, Hp. cbn. f_equal. lia.
Qed.

Lemma atoi_itoa z : in_int64 z = true -> atoi (itoa z) = Some z.
Proof.
  unfold in_int64, int64_min, int64_max. intro H. unfold atoi, parse_int. rewrite parse_signed_itoa.
  change (64 - 1)%Z with 63%Z. rewrite H. reflexivity.
Qed.
