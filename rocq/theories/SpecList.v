(** Specification of what the listing functions and the array functions report for texts they do not trim
    properly: a one-byte value with whitespace after it, and containers holding nothing but whitespace.
    Nothing here refers to the model of the code. *)
From Coq Require Import String.
From Verif Require Export SpecIter.

Local Open Scope N_scope.

(** A value [v] with whitespace [u] before and [w] after it.  One byte of the whitespace stays when the value
    is a single byte with no whitespace before it. *)
Definition trimmed (u : bytes) (v : jv) (w : bytes) : bytes :=
  match u with
  | [] => if (length (render v) =? 1)%nat then render v ++ firstn 1 w else bare v
  | _ => bare v
  end.
Definition listed_values (ms : list (mem jv)) : list bytes := map (fun m => trimmed (m_mid2 m) (m_val m) (m_post m)) ms.
Definition listed (w : bytes) (els : list (elem jv)) : list bytes :=
  match els with
  | [] => []
  | e :: l => trimmed (w ++ e_pre e) (e_val e) (e_post e) :: map (fun e => trimmed (e_pre e) (e_val e) (e_post e)) l
  end.

(** What is left of a text of whitespace only; [None]: trimming it goes out of bounds. *)
Definition blanks (w : bytes) : option bytes :=
  match w with
  | [c] => Some [c]
  | [_; c] => Some [c]
  | [_; _; _] => Some []
  | _ => None
  end.
(** The texts an array is cut into: an array of whitespace counts as having one element. *)
Definition listing (w : bytes) (els : list (elem jv)) : option (list bytes) :=
  match els with
  | [] => match blanks w with Some t => Some [t] | None => None end
  | _ => Some (listed w els)
  end.

(** The same for a text that need not be a value: quotation marks around what is left are dropped. *)
Fixpoint drop_ws (s : bytes) : bytes :=
  match s with
  | [] => []
  | c :: r => if is_ws c then drop_ws r else s
  end.
Definition strip (s : bytes) : bytes := rev (drop_ws (rev (drop_ws s))).
Definition unquoted (t : bytes) : option bytes :=
  if (hd 0 t =? 34) && (last t 0 =? 34) then match t with [_] => None | _ => Some (removelast (tl t)) end else Some t.
Definition cleaned (s : bytes) : option bytes :=
  match strip s with
  | [] => blanks s
  | [c] => unquoted (if is_ws (hd 0 s) then [c] else firstn 2 s)
  | t => unquoted t
  end.

(** The members of an object as pairs; a one-byte value before a comma keeps all the whitespace after it. *)
Definition shown (m : mem jv) : bytes :=
  if (length (render (m_val m)) =? 1)%nat then render (m_val m) ++ m_post m else bare (m_val m).
Fixpoint shown_pairs (ms : list (mem jv)) : list (bytes * bytes) :=
  match ms with
  | [] => []
  | [m] => [(m_key m, bare (m_val m))]
  | m :: r => (m_key m, shown m) :: shown_pairs r
  end.
(** An empty object counts as having one member with an empty key. *)
Definition object_pairs (ms : list (mem jv)) : list (bytes * bytes) :=
  match ms with [] => [([], [123])] | _ => shown_pairs ms end.
(** An empty array counts as having one element: the last byte of its whitespace. *)
Definition array_items (w : bytes) (els : list (elem jv)) : list bytes :=
  match els with [] => [skipn (pred (length w)) w] | _ => items els end.

(** Convert texts from left to right; the first text that fails, if any. *)
Fixpoint conversions {A : Type} (f : bytes -> option A) (xs : list bytes) : list A * option bytes :=
  match xs with
  | [] => ([], None)
  | x :: r => match f x with
              | None => ([], Some x)
              | Some a => let '(l, e) := conversions f r in (a :: l, e)
              end
  end.
