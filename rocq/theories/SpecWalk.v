(** Specification of walking a document. *)
From Coq Require Import String.
From Verif Require Export Json.
From Verif Require Import GoStd SpecIter.

Local Open Scope N_scope.

Section Leaves.
  (** [dec] gives the text of a position *)
  Variable dec : nat -> bytes.

  (** The scalars and strings below a value with their paths, in the order of the text. *)
  Fixpoint leaves (p : list bytes) (v : jv) : list (list bytes * jv) :=
    match v with
    | JArr _ els =>
        (fix go (i : nat) (els : list (elem jv)) : list (list bytes * jv) :=
           match els with
           | [] => []
           | Elem _ u _ :: r => leaves (p ++ [dec i]) u ++ go (S i) r
           end) O els
    | JObj _ ms =>
        (fix go (ms : list (mem jv)) : list (list bytes * jv) :=
           match ms with
           | [] => []
           | Mem _ k _ _ u _ :: r => leaves (p ++ [k]) u ++ go r
           end) ms
    | _ => [(p, v)]
    end.
End Leaves.

(** What the callback is shown of a leaf. *)
Definition leaf_key (p : list bytes) : bytes := last p [].

(** ** What the library's Walk does

    [shown] is what the callback gets of a leaf.  The answer of the callback to "go on" is ignored; an error ends the
    walk, except that an object swallows the error of its last member; an array without elements is an error. *)
Section Exact.
  Context {St Er : Type}.
  Variables (dec : nat -> bytes) (shown : list bytes -> jv -> bytes) (empty_array : Er).
  Variable cb : St -> bytes -> bytes -> list bytes -> St * (bool * option Er).

  Fixpoint walked (p : list bytes) (v : jv) (s : St) : St * option Er :=
    match v with
    | JArr _ [] => (s, Some empty_array)
    | JArr _ els =>
        (fix go (i : nat) (els : list (elem jv)) (s : St) : St * option Er :=
           match els with
           | [] => (s, None)
           | Elem _ u _ :: r =>
               match walked (p ++ [dec i]) u s with
               | (s', None) => go (S i) r s'
               | x => x
               end
           end) O els s
    | JObj _ ms =>
        (fix go (ms : list (mem jv)) (s : St) : St * option Er :=
           match ms with
           | [] => (s, None)
           | Mem _ k _ _ u _ :: r =>
               match walked (p ++ [k]) u s with
               | (s', None) => go r s'
               | (s', Some e) => (s', match r with [] => None | _ => Some e end)
               end
           end) ms s
    | _ => let '(s', (_, e)) := cb s (leaf_key p) (shown p v) p in (s', e)
    end.
End Exact.

(** The walk as one would expect it: every leaf in order, until the callback says stop or fails. *)
Definition expected {St Er : Type} (dec : nat -> bytes) (shown : list bytes -> jv -> bytes)
           (cb : St -> bytes -> bytes -> list bytes -> St * (bool * option Er)) (v : jv) (s : St) : St * option Er :=
  visit (fun s l => cb s (leaf_key (fst l)) (shown (fst l) (snd l)) (fst l)) (leaves dec [] v) s.

(** A callback that never asks to stop. *)
Definition keep_going {St Er : Type} (cb : St -> bytes -> bytes -> list bytes -> St * (bool * option Er)) :
  St -> bytes -> bytes -> list bytes -> St * (bool * option Er) :=
  fun s k v p => let '(s', (_, e)) := cb s k v p in (s', (true, e)).

(** No array without elements; no object. *)
Fixpoint filled (v : jv) : bool :=
  match v with
  | JArr _ [] => false
  | JArr _ els => forallb (fun e => match e with Elem _ u _ => filled u end) els
  | JObj _ ms => forallb (fun m => match m with Mem _ _ _ _ u _ => filled u end) ms
  | _ => true
  end.
Fixpoint no_obj (v : jv) : bool :=
  match v with
  | JArr _ els => forallb (fun e => match e with Elem _ u _ => no_obj u end) els
  | JObj _ _ => false
  | _ => true
  end.

(** The objects in a value with their paths. *)
Fixpoint objects (dec : nat -> bytes) (p : list bytes) (v : jv) : list (list bytes * list (mem jv)) :=
  match v with
  | JArr _ els =>
      (fix go (i : nat) (els : list (elem jv)) : list (list bytes * list (mem jv)) :=
         match els with
         | [] => []
         | Elem _ u _ :: r => objects dec (p ++ [dec i]) u ++ go (S i) r
         end) O els
  | JObj _ ms =>
      (p, ms) ::
      (fix go (ms : list (mem jv)) : list (list bytes * list (mem jv)) :=
         match ms with
         | [] => []
         | Mem _ k _ _ u _ :: r => objects dec (p ++ [k]) u ++ go r
         end) ms
  | _ => []
  end.

(** No object has a key twice. *)
Definition unique_keys (dec : nat -> bytes) (v : jv) : Prop := forall p ms, In (p, ms) (objects dec [] v) -> NoDup (map m_key ms).

(** The document as one finds it by its paths: a member holds what its key leads to, the value of the first member with this
    key. *)
Fixpoint as_found (v : jv) : jv :=
  match v with
  | JArr w els => JArr w (map (fun e => match e with Elem a u c => Elem a (as_found u) c end) els)
  | JObj w ms =>
      let ms' := map (fun m => match m with Mem a k c c' u e => Mem a k c c' (as_found u) e end) ms in
      JObj w (map (fun m => match m with Mem a k c c' u e =>
                     Mem a k c c' (match find_mem k ms' with Some m0 => m_val m0 | None => u end) e end) ms')
  | _ => v
  end.

(** The text of a position, and of a scalar or string that the walk of a document gets to: at the root that is the whole text. *)
Definition dec (i : nat) : bytes := itoa (Z.of_nat i).
Definition shown_leaf (d : doc) (p : list bytes) (v : jv) : bytes := match p with [] => text d | _ => bare v end.
