(** Specification of formatting: trees without insignificant whitespace.  Nothing here refers to the model. *)
From Verif Require Export Json.

Local Open Scope N_scope.

(** The tree with every piece of insignificant whitespace removed. *)
Fixpoint strip (v : jv) : jv :=
  match v with
  | JScalar s => JScalar s
  | JString s => JString s
  | JArr _ els => JArr [] (map (fun e => Elem [] (strip (e_val e)) []) els)
  | JObj _ ms => JObj [] (map (fun m => Mem [] (m_key m) [] [] (strip (m_val m)) []) ms)
  end.

(** No key and no string ends in a backslash (that is, in an escaped one). *)
Fixpoint calm (v : jv) : bool :=
  match v with
  | JScalar _ => true
  | JString s => negb (last s 0 =? 92)
  | JArr _ els => forallb (fun e => calm (e_val e)) els
  | JObj _ ms => forallb (fun m => negb (last (m_key m) 0 =? 92) && calm (m_val m)) ms
  end.

(** The tree laid out with one item per line, indented with [n] tabs and more. *)
Definition line (n : nat) : bytes := 10 :: repeat 9 n.
Section Rows.
  Context {A B : Type} (f : bytes -> A -> bytes -> B) (n : nat).
  (** First item, then the following ones on their own lines; the last one followed by a line of [n] tabs. *)
  Fixpoint rows (pre : bytes) (xs : list A) : list B :=
    match xs with
    | [] => []
    | [x] => [f pre x (line n)]
    | x :: r => f pre x [] :: rows (line (S n)) r
    end.
End Rows.
Fixpoint pretty (n : nat) (v : jv) : jv :=
  match v with
  | JScalar s => JScalar s
  | JString s => JString s
  | JArr _ [] => JArr (line (S n) ++ line n) []
  | JObj _ [] => JObj (line (S n) ++ line n) []
  | JArr _ els => JArr [] (rows (fun u x w => Elem u x w) n (line (S n)) (map (fun e => pretty (S n) (e_val e)) els))
  | JObj _ ms => JObj [] (rows (fun u p w => Mem u (fst p) [] [32] (snd p) w) n (line (S n))
                               (map (fun m => (m_key m, pretty (S n) (m_val m))) ms))
  end.

(** ** Texts that need not be documents *)

(** Brackets opened minus brackets closed outside of quotes; a quote counts unless it directly follows a backslash.
    [p] is the byte before, [q] tells whether the text begins between quotes. *)
Fixpoint nesting (p : N) (q : bool) (s : bytes) : Z :=
  match s with
  | [] => 0%Z
  | c :: r =>
      if (c =? 34) && negb (p =? 92) then nesting c (negb q) r
      else if q then nesting c q r
      else if (c =? 91) || (c =? 123) then (nesting c q r + 1)%Z
      else if (c =? 93) || (c =? 125) then (nesting c q r - 1)%Z
      else nesting c q r
  end.

(** Backslashes occur between quotes only, and no quote stands after an escaped backslash. *)
Fixpoint tame (q : bool) (s : bytes) : bool :=
  match s with
  | [] => true
  | c :: r =>
      if c =? 92 then
        q && match r with
             | [] => true
             | d :: r' => negb ((d =? 92) && (hd 0 r' =? 34)) && tame q r'
             end
      else tame (if c =? 34 then negb q else q) r
  end.
