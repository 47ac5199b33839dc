(** Model of make.go: the Make functions and the Scheme methods that read or build JSON.  A nil slice or map is
    [None]; [pf] is the set of texts strconv.ParseFloat accepts. *)
From Coq Require Import String.
From Verif Require Import GoStd Core Errors Api Iter Typed.

Local Open Scope N_scope.

(** ** Arrays *)

(** make.go:164-166 [MakeEmptyArray], make.go:297-299 [MakeEmptyJson] *)
Definition MakeEmptyArray : bytes := [91; 93].
Definition MakeEmptyJson : bytes := [123; 125].

(** The body all Make functions share (e.g. make.go:193-200): the opening bracket, every item followed by a comma,
    [js = js[:len(js)-1]], the closing bracket. *)
Definition build (opn cls : N) (items : list bytes) : bytes :=
  removelast (opn :: concat (map (fun i => i ++ [44]) items)) ++ [cls].

(** make.go:189-202 [MakeArrayString] *)
Definition MakeArrayString (pf : bytes -> bool) (values : option (list bytes)) : bytes :=
  match values with None => b "[]" | Some vs => build 91 93 (map (formatType pf) vs) end.

(** make.go:171-184 [MakeArray]; the elements are given as the texts fmt.Sprintf("%v", e) *)
Definition MakeArray (pf : bytes -> bool) (elements : option (list bytes)) : bytes :=
  match elements with None => [91; 93] | Some es => build 91 93 (map (formatType pf) es) end.

(** make.go:207-220 [MakeArrayInt] *)
Definition MakeArrayInt (values : option (list Z)) : bytes :=
  match values with None => [91; 93] | Some vs => build 91 93 (map itoa vs) end.

(** make.go:225-246 [MakeArrayBool] *)
Definition MakeArrayBool (values : option (list bool)) : bytes :=
  match values with None => [91; 93] | Some vs => build 91 93 (map bool_text vs) end.

(** make.go:281-294 [MakeArrayBytes] *)
Definition MakeArrayBytes (values : option (list bytes)) : bytes :=
  match values with None => [91; 93] | Some vs => build 91 93 vs end.

(** make.go:260-264: the position of the last 'e' of the text, 0 if there is none *)
Fixpoint last_e (num : bytes) (i start : nat) : nat :=
  match num with
  | [] => start
  | c :: r => last_e r (S i) (if c =? 101 then i else start)
  end.

(** make.go:258-271, what is appended for one number, given as strconv.FormatFloat(v, 'f', -1, 64).  The error of
    Atoi is ignored: it gives 0 for a text that is no number, and the nearest int (not 0) for one out of range. *)
Definition float_item (num : bytes) : res bytes :=
  let start := last_e num 0 0 in
  do tail <- slice num (start + 2) (length num);
  if match parse_signed tail with Some z => (z =? 0)%Z | None => true end then Ok (firstn start num) else Ok num.

Fixpoint float_items (nums : list bytes) : res (list bytes) :=
  match nums with
  | [] => Ok []
  | n :: r => do i <- float_item n; do l <- float_items r; Ok (i :: l)
  end.

(** make.go:251-276 [MakeArrayFloat] *)
Definition MakeArrayFloat (nums : option (list bytes)) : res bytes :=
  match nums with None => Ok [91; 93] | Some ns => do l <- float_items ns; Ok (build 91 93 l) end.

(** ** Objects *)

(** One pair (e.g. make.go:337-341) *)
Definition pair_item (pf : bytes -> bool) (kv : bytes * bytes) : bytes :=
  34 :: fst kv ++ 34 :: 58 :: formatType pf (snd kv).

(** The length of a slice, nil or not *)
Definition olen {A : Type} (l : option (list A)) : nat := match l with None => 0 | Some l => length l end.
Definition olist {A : Type} (l : option (list A)) : list A := match l with None => [] | Some l => l end.

(** make.go:327-347 [MakeJsonString]; the result None is nil *)
Definition MakeJsonString (pf : bytes -> bool) (ks vs : option (list bytes)) : option bytes :=
  if negb (olen ks =? olen vs)%nat then None
  else match ks with
       | None => Some [123; 125]
       | Some ks => Some (build 123 125 (map (pair_item pf) (combine ks (olist vs))))
       end.

(** make.go:304-324 [MakeJson]; the values are given as the texts fmt.Sprintf("%v", values[i]) *)
Definition MakeJson (pf : bytes -> bool) (ks vs : option (list bytes)) : option bytes :=
  if negb (olen ks =? olen vs)%nat then None
  else match ks with
       | None => Some [123; 125]
       | Some ks => Some (build 123 125 (map (pair_item pf) (combine ks (olist vs))))
       end.

(** make.go:350-367 [MakeJsonWithMap]; the pairs in the order in which range yields them *)
Definition MakeJsonWithMap (pf : bytes -> bool) (m : option (list (bytes * bytes))) : bytes :=
  match m with None => [123; 125] | Some ps => build 123 125 (map (pair_item pf) ps) end.

(** ** Scheme methods; [ks] are the current keys *)

(** make.go:26-28 and 32-34 [Scheme.MakeJson], [Scheme.MakeJsonString] *)
Definition Scheme_MakeJson pf (ks vs : option (list bytes)) : option bytes := MakeJson pf ks vs.
Definition Scheme_MakeJsonString pf (ks vs : option (list bytes)) : option bytes := MakeJsonString pf ks vs.

(** make.go:59-69, the loop of MutateJsonAbs *)
Fixpoint mutate_abs (pf : bytes -> bool) (json : bytes) (ks : list bytes) (new : bytes) : res bytes :=
  match ks with
  | [] => Ok new
  | k :: r =>
      do val <- GetString json [k];
      match AddKeyValueString pf new k (formatType pf val) [] with
      | Done new' => mutate_abs pf json r new'
      | Fail _ e => Err e
      | UPanic => Panic
      end
  end.

(** make.go:55-71 [Scheme.MutateJsonAbs] *)
Definition MutateJsonAbs pf (ks : list bytes) (json : bytes) : res bytes := mutate_abs pf json ks (b "{}").

(** make.go:41-50, the loop of MutateJson.  [new] is nil or a text (a nil one stays nil when nothing can be added to it); the
    result [Ok None] is (nil, nil): the error returned when a key cannot be added is [err], which is nil there. *)
Fixpoint mutate (pf : bytes -> bool) (json : bytes) (ks : list bytes) (new : option bytes) : res (option bytes) :=
  match ks with
  | [] => Ok new
  | k :: r =>
      let text := match new with None => [] | Some t => t end in
      match GetString json [k] with
      | Panic => Panic
      | Ok val =>
          match AddKeyValueString pf text k (formatType pf val) [] with
          | Done new' => mutate pf json r (Some new')
          | Fail _ _ => Ok None
          | UPanic => Panic
          end
      | Err _ =>
          match AddKeyValueString pf text k (formatType pf []) [] with
          | Done new' => mutate pf json r (Some new')
          | Fail out _ => mutate pf json r (match new with None => None | Some _ => out end)
          | UPanic => Panic
          end
      end
  end.

(** make.go:37-52 [Scheme.MutateJson] *)
Definition MutateJson pf (ks : list bytes) (json : bytes) : res (option bytes) := mutate pf json ks (Some (b "{}")).

(** make.go:74-82 [Scheme.Check] *)
Fixpoint Check (ks : list bytes) (json : bytes) : res bool :=
  match ks with
  | [] => Ok true
  | k :: r => match Get json [k] with
              | Ok _ => Check r json
              | Err _ => Ok false
              | Panic => Panic
              end
  end.

(** make.go:96-101, the inner loop of CheckAbs *)
Fixpoint in_scheme (key : bytes) (ks : list bytes) : bool :=
  match ks with
  | [] => false
  | k :: r => if bytes_eqb key k then true else in_scheme key r
  end.

(** make.go:93-105, the outer loop *)
Fixpoint all_in (keys ks : list bytes) : bool :=
  match keys with
  | [] => true
  | k :: r => if in_scheme k ks then all_in r ks else false
  end.

(** make.go:85-107 [Scheme.CheckAbs] *)
Definition CheckAbs (ks : list bytes) (json : bytes) : res bool :=
  match GetKeys json [] with
  | Panic => Panic
  | Err _ => Ok false
  | Ok keys => if negb (length keys =? length ks)%nat then Ok false else Ok (all_in keys ks)
  end.
