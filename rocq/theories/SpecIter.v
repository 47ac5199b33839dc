(** Specification of iteration: what a callback-driven traversal of a sequence does.  Nothing here refers
    to the model of the code. *)
From Coq Require Import String.
From Verif Require Export Json.

Local Open Scope N_scope.

(** Call [cb] on the items from left to right, threading the caller's state, until it returns false or an
    error; result: the final state and the error. *)
Fixpoint visit {A St Er : Type} (cb : St -> A -> St * (bool * option Er)) (xs : list A) (s : St) : St * option Er :=
  match xs with
  | [] => (s, None)
  | x :: r =>
      let '(s', (go, e)) := cb s x in
      match e with
      | Some e => (s', Some e)
      | None => if go : bool then visit cb r s' else (s', None)
      end
  end.

(** What a reader is shown of an array and of an object. *)
Definition items (els : list (elem jv)) : list bytes := map (fun e => bare (e_val e)) els.
Definition keys (ms : list (mem jv)) : list bytes := map m_key ms.
Definition values (ms : list (mem jv)) : list bytes := map (fun m => bare (m_val m)) ms.
Definition pairs (ms : list (mem jv)) : list (bytes * bytes) := map (fun m => (m_key m, bare (m_val m))) ms.

(** Last binding of a key. *)
Definition last_assoc {V : Type} (k : bytes) (ps : list (bytes * V)) : option V :=
  option_map snd (find (fun p => bytes_eqb (fst p) k) (rev ps)).

(** No whitespace follows the value, or the value is longer than one byte. *)
Definition tight (m : mem jv) : Prop := m_post m = [] \/ (2 <= length (render (m_val m)))%nat.

(** The callback on pairs as a callback on items. *)
Definition uncurry2 {A B C D : Type} (f : A -> B -> C -> D) (a : A) (p : B * C) : D := f a (fst p) (snd p).

(** A finite map given as an association list without repeated keys. *)
Definition assoc {V : Type} (k : bytes) (m : list (bytes * V)) : option V :=
  option_map snd (find (fun p => bytes_eqb (fst p) k) m).
Definition map_of {V : Type} (m : list (bytes * V)) (ps : list (bytes * V)) : Prop :=
  NoDup (map fst m) /\ forall k, assoc k m = last_assoc k ps.

(** The elements of an array numbered from 0, [dec] giving the text of a number. *)
Definition numbered {A : Type} (dec : nat -> bytes) (xs : list A) : list (bytes * A) :=
  combine (map dec (seq 0 (length xs))) xs.

(** ** Shapes *)
Definition is_arr (v : jv) : bool := match v with JArr _ _ => true | _ => false end.
Definition is_obj (v : jv) : bool := match v with JObj _ _ => true | _ => false end.
Definition is_str (v : jv) : bool := match v with JString _ => true | _ => false end.
Definition size (v : jv) : nat := match v with JArr _ els => length els | JObj _ ms => length ms | _ => 0%nat end.
Definition closing (v : jv) : N := match v with JArr _ _ => 93 | _ => 125 end.

(** A one-element array whose element is a single byte right before the closing bracket. *)
Definition lone (v : jv) : bool :=
  match v with
  | JArr _ [e] => (length (render (e_val e)) =? 1)%nat && match e_post e with [] => true | _ => false end
  | _ => false
  end.

(** The value does not run into whitespace the cleaning of the code leaves in place: whitespace [u] before
    it, none ([w]) after it, or more than one byte. *)
Definition tight2 (u : bytes) (v : jv) (w : bytes) : Prop :=
  u <> [] \/ w = [] \/ (2 <= length (render v))%nat.
Definition tight_m (m : mem jv) : Prop := tight2 (m_mid2 m) (m_val m) (m_post m).
Definition tight_e (w : bytes) (els : list (elem jv)) : Prop :=
  match els with
  | [] => True
  | e :: l => tight2 (w ++ e_pre e) (e_val e) (e_post e) /\ Forall (fun e => tight2 (e_pre e) (e_val e) (e_post e)) l
  end.

(** The document root, or a container directly followed by a bracket of the same kind as its own closing one. *)
Definition closed_after (d : doc) (p : list bytes) (v : jv) (post : bytes) : Prop :=
  p = [] \/ exists r, post ++ d_post d = closing v :: r.

(** A position read without surrounding whitespace: below the root, or a root without whitespace around it. *)
Definition whole (d : doc) (p : list bytes) : Prop := p <> [] \/ (d_pre d = [] /\ d_post d = []).

Definition unbool (t : bytes) : option bool :=
  if bytes_eqb t (b "true") then Some true else if bytes_eqb t (b "false") then Some false else None.
