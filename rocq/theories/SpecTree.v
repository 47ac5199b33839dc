(** What Parser.GetNew and Parser.Tree print, in terms of document trees only. *)
From Coq Require Import String.
From Verif Require Import GoStd Json Spec Focus SpecParser.

Local Open Scope N_scope.

(** ** GetNew: the value without the blanks next to its containers.  What surrounds a scalar or string inside a container
    is kept up to the separators; keys lose their blanks. *)
Fixpoint condensed (v : jv) : jv :=
  match v with
  | JArr w els =>
      if lonely v then v else
      match els with
      | [] => v
      | e :: r =>
          let item e := if container (e_val e) then Elem [] (condensed (e_val e)) [] else e in
          JArr [] ((if container (e_val e) then Elem [] (condensed (e_val e)) [] else Elem (w ++ e_pre e) (e_val e) (e_post e)) :: map item r)
      end
  | JObj w ms =>
      match ms with
      | [] => v
      | _ =>
          JObj [] (map (fun m => if container (m_val m) then Mem [] (m_key m) [] [] (condensed (m_val m)) []
                                 else Mem [] (m_key m) [] (m_mid2 m) (m_val m) (m_post m)) ms)
      end
  | _ => v
  end.

(** ** Tree: the values inside a value, in the order of the text, each with the steps that lead to it and its text.
    The text of a container is its own, that of a scalar or string reaches from separator to separator.
    An array of one scalar or string is shown without its element. *)
Fixpoint inside (v : jv) : list (list bytes * bytes) :=
  match v with
  | JArr w els =>
      if lonely v then [] else
      (fix go (k : nat) (u : bytes) (els : list (elem jv)) : list (list bytes * bytes) :=
         match els with
         | [] => []
         | Elem p x q :: r =>
             let lbl := itoa (Z.of_nat k) in
             ([lbl], if container x then render x else (u ++ p) ++ render x ++ q)
               :: map (fun y => (lbl :: fst y, snd y)) (inside x) ++ go (S k) [] r
         end) O w els
  | JObj _ ms =>
      (fix go (ms : list (mem jv)) : list (list bytes * bytes) :=
         match ms with
         | [] => []
         | Mem _ key _ u x q :: r =>
             ([key], if container x then render x else u ++ render x ++ q)
               :: map (fun y => (key :: fst y, snd y)) (inside x) ++ go r
         end) ms
  | _ => []
  end.

(** Every index on the path is written the way Itoa writes it. *)
Fixpoint spelled (v : jv) (p : list bytes) : bool :=
  match p with
  | [] => true
  | x :: p' => exact_step v x && match child v x with Some c => spelled c p' | None => true end
  end.

(** One line per value: the depth, the label, and for TreeFull the text behind a label filled up to six characters. *)
Definition bullet (steps : list bytes) : bytes :=
  match steps with
  | [] => []
  | [_] => [226; 148; 128; 32]                                               (* "─ " *)
  | _ :: _ :: r => 9 :: repeat 9 (length r) ++ [226; 148; 148; 32; 32]       (* tabs, "└  " *)
  end.
Definition short_line (x : list bytes * bytes) : bytes := bullet (fst x) ++ last (fst x) [] ++ [10].
Definition full_line (width : bytes -> nat) (x : list bytes * bytes) : bytes :=
  let l := last (fst x) [] in
  bullet (fst x) ++ l ++ repeat 32 (6 - width l) ++ b " : " ++ snd x ++ [10].

(** No array of exactly one scalar or string. *)
Fixpoint no_lonely (v : jv) : bool :=
  negb (lonely v) &&
  match v with
  | JArr _ els => forallb (fun e => no_lonely (e_val e)) els
  | JObj _ ms => forallb (fun m => no_lonely (m_val m)) ms
  | _ => true
  end.

(** No object has a key twice. *)
Fixpoint all_differ (xs : list bytes) : bool :=
  match xs with [] => true | x :: r => negb (existsb (bytes_eqb x) r) && all_differ r end.
Fixpoint single_keys (v : jv) : bool :=
  match v with
  | JArr _ els => forallb (fun e => single_keys (e_val e)) els
  | JObj _ ms => all_differ (map m_key ms) && forallb (fun m => single_keys (m_val m)) ms
  | _ => true
  end.

(** UTF-8 (RFC 3629): the bytes of a character. *)
Definition character (c : N) : Prop := c < 55296 \/ 57344 <= c < 1114112.
Definition utf8 (c : N) : bytes :=
  if c <? 128 then [c]
  else if c <? 2048 then [192 + c / 64; 128 + c mod 64]
  else if c <? 65536 then [224 + c / 4096; 128 + c / 64 mod 64; 128 + c mod 64]
  else [240 + c / 262144; 128 + c / 4096 mod 64; 128 + c / 64 mod 64; 128 + c mod 64].
