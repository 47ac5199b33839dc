(** Specification: JSON documents as concrete-syntax trees.

    Nothing in this file refers to the model of the code.  A tree records every byte of the text
    (including insignificant whitespace), so [render] is exact; [content] forgets the whitespace. *)
From Verif Require Export GoStd.

Local Open Scope N_scope.

(** ** Characters *)
Definition is_ws (c : N) : bool := (c =? 32) || (c =? 9) || (c =? 10) || (c =? 13).

(** Bytes that may appear in a number or literal token: anything except whitespace, the JSON
    structural characters [, : [ ] { }], the quote and the backslash.  All RFC 8259 numbers and the
    literals true/false/null consist of such bytes. *)
Definition is_token_char (c : N) : bool :=
  negb (is_ws c || (c =? 34) || (c =? 44) || (c =? 58) || (c =? 91) || (c =? 93) ||
        (c =? 123) || (c =? 125) || (c =? 92)).

(** ** Trees *)
Record elem (V : Type) : Type := Elem { e_pre : bytes; e_val : V; e_post : bytes }.
Arguments Elem {V}. Arguments e_pre {V}. Arguments e_val {V}. Arguments e_post {V}.

(** A member: whitespace, "key", whitespace, colon, whitespace, value, whitespace. *)
Record mem (V : Type) : Type :=
  Mem { m_pre : bytes; m_key : bytes; m_mid : bytes; m_mid2 : bytes; m_val : V; m_post : bytes }.
Arguments Mem {V}. Arguments m_pre {V}. Arguments m_key {V}. Arguments m_mid {V}.
Arguments m_mid2 {V}. Arguments m_val {V}. Arguments m_post {V}.

Inductive jv : Type :=
| JScalar (s : bytes)                        (* number, true, false, null: the token *)
| JString (s : bytes)                        (* the raw text between the quotes *)
| JArr (w : bytes) (els : list (elem jv))    (* [w] is whitespace after the bracket *)
| JObj (w : bytes) (mems : list (mem jv)).

Fixpoint join (xs : list bytes) : bytes :=
  match xs with
  | [] => []
  | [x] => x
  | x :: r => x ++ 44 :: join r
  end.

Fixpoint render (v : jv) : bytes :=
  match v with
  | JScalar s => s
  | JString s => 34 :: s ++ [34]
  | JArr w els =>
      91 :: w ++ join (map (fun e => e_pre e ++ render (e_val e) ++ e_post e) els) ++ [93]
  | JObj w mems =>
      123 :: w ++ join (map (fun m => m_pre m ++ 34 :: m_key m ++ 34 :: m_mid m ++ 58 ::
                                      m_mid2 m ++ render (m_val m) ++ m_post m) mems) ++ [125]
  end.

(** A document: a value with whitespace around it. *)
Record doc : Type := Doc { d_pre : bytes; d_val : jv; d_post : bytes }.
Definition text (d : doc) : bytes := d_pre d ++ render (d_val d) ++ d_post d.

(** ** Well-formedness *)
Definition ws_ok (w : bytes) : bool := forallb is_ws w.

(** Raw string contents: no unescaped quote, every backslash followed by a byte. *)
Fixpoint str_ok (s : bytes) : bool :=
  match s with
  | [] => true
  | c :: r =>
      if c =? 34 then false
      else if c =? 92 then match r with [] => false | _ :: r' => str_ok r' end
      else str_ok r
  end.

Definition scalar_ok (s : bytes) : bool :=
  match s with [] => false | _ => forallb is_token_char s end.

Fixpoint wf (v : jv) : bool :=
  match v with
  | JScalar s => scalar_ok s
  | JString s => str_ok s
  | JArr w els => ws_ok w && forallb (fun e => ws_ok (e_pre e) && wf (e_val e) && ws_ok (e_post e)) els
  | JObj w mems =>
      ws_ok w && forallb (fun m => ws_ok (m_pre m) && str_ok (m_key m) && ws_ok (m_mid m) &&
                                   ws_ok (m_mid2 m) && wf (m_val m) && ws_ok (m_post m)) mems
  end.

Definition wf_doc (d : doc) : bool := ws_ok (d_pre d) && wf (d_val d) && ws_ok (d_post d).

(** ** Abstract content: the document without insignificant whitespace. *)
Inductive jd : Type :=
| DScalar (s : bytes)
| DString (s : bytes)
| DArr (ds : list jd)
| DObj (ms : list (bytes * jd)).

Fixpoint content (v : jv) : jd :=
  match v with
  | JScalar s => DScalar s
  | JString s => DString s
  | JArr _ els => DArr (map (fun e => content (e_val e)) els)
  | JObj _ mems => DObj (map (fun m => (m_key m, content (m_val m))) mems)
  end.

(** What a reader of the value gets: the text, without the quotes for a string. *)
Definition bare (v : jv) : bytes :=
  match v with JString s => s | _ => render v end.

(** ** Paths *)

(** Element of a list at an integer index. *)
Definition nth_z {A : Type} (l : list A) (z : Z) : option A :=
  if ((0 <=? z) && (z <? Z.of_nat (length l)))%Z then nth_error l (Z.to_nat z) else None.

(** First member with the given raw key. *)
Definition find_mem {V : Type} (k : bytes) (ms : list (mem V)) : option (mem V) :=
  find (fun m => bytes_eqb (m_key m) k) ms.

(** One step: by decimal index in an array, by key in an object. *)
Definition child (v : jv) (x : bytes) : option jv :=
  match v with
  | JArr _ els => match atoi x with
                  | Some z => option_map e_val (nth_z els z)
                  | None => None
                  end
  | JObj _ ms => option_map m_val (find_mem x ms)
  | _ => None
  end.

Fixpoint lookup (v : jv) (p : list bytes) : option jv :=
  match p with
  | [] => Some v
  | x :: p' => match child v x with Some c => lookup c p' | None => None end
  end.

(** ** Updates *)
Fixpoint set_nth {A : Type} (l : list A) (n : nat) (f : A -> A) : list A :=
  match l, n with
  | [], _ => []
  | a :: r, O => f a :: r
  | a :: r, S n' => a :: set_nth r n' f
  end.

(** Apply [f] to the first member with key [k]. *)
Fixpoint set_mem (k : bytes) (f : mem jv -> mem jv) (ms : list (mem jv)) : list (mem jv) :=
  match ms with
  | [] => []
  | m :: r => if bytes_eqb (m_key m) k then f m :: r else m :: set_mem k f r
  end.

Definition with_val (m : mem jv) (c : jv) : mem jv :=
  Mem (m_pre m) (m_key m) (m_mid m) (m_mid2 m) c (m_post m).

Definition set_child (v : jv) (x : bytes) (c : jv) : jv :=
  match v with
  | JArr w els => match atoi x with
                  | Some z => JArr w (set_nth els (Z.to_nat z) (fun e => Elem (e_pre e) c (e_post e)))
                  | None => v
                  end
  | JObj w ms => JObj w (set_mem x (fun m => with_val m c) ms)
  | _ => v
  end.

(** [modify v p f]: the tree [v] with the subtree at [p] replaced by its image under [f]; None when
    the path does not resolve or [f] is not applicable there. *)
Fixpoint modify (v : jv) (p : list bytes) (f : jv -> option jv) : option jv :=
  match p with
  | [] => f v
  | x :: p' =>
      match child v x with
      | Some c => match modify c p' f with Some c' => Some (set_child v x c') | None => None end
      | None => None
      end
  end.

Definition put (v : jv) (p : list bytes) (new : jv) : option jv := modify v p (fun _ => Some new).

Definition container (v : jv) : bool := match v with JArr _ _ | JObj _ _ => true | _ => false end.

(** ** Induction principle for the nested tree type *)
Section jv_ind.
  Variable P : jv -> Prop.
  Hypothesis Hsc : forall s, P (JScalar s).
  Hypothesis Hst : forall s, P (JString s).
  Hypothesis Harr : forall w els, Forall (fun e => P (e_val e)) els -> P (JArr w els).
  Hypothesis Hobj : forall w ms, Forall (fun m => P (m_val m)) ms -> P (JObj w ms).
  Fixpoint jv_ind' (v : jv) : P v :=
    match v with
    | JScalar s => Hsc s
    | JString s => Hst s
    | JArr w els => Harr w els
        ((fix go (l : list (elem jv)) : Forall (fun e => P (e_val e)) l :=
            match l with
            | [] => Forall_nil _
            | Elem a v' c :: r => Forall_cons (Elem a v' c) (jv_ind' v') (go r)
            end) els)
    | JObj w ms => Hobj w ms
        ((fix go (l : list (mem jv)) : Forall (fun m => P (m_val m)) l :=
            match l with
            | [] => Forall_nil _
            | Mem a k c d v' e :: r => Forall_cons (Mem a k c d v' e) (jv_ind' v') (go r)
            end) ms)
    end.
End jv_ind.
