(** Specification of what the library may do to memory it is handed and what it hands back. *)
From Coq Require Import String.
From Verif Require Import GoStd Errors Api Format GoMem Mem.

(** The window and its capacity lie within the array; the length within the capacity. *)
Definition valid (h : mem) (s : bsl) : Prop := b_len s <= b_cap s /\ b_off s + b_cap s <= length (block h (b_arr s)).

(** [h'] has every array of [h], unchanged to the last byte (spare capacity included), and perhaps further ones. *)
Definition extends (h h' : mem) : Prop := exists l, h' = h ++ l.

(** The slice lies in an array that did not exist in [h]. *)
Definition fresh (h : mem) (s : bsl) : Prop := length h <= b_arr s.

(** [v] is the window of [s] from [i] to [j]: the same bytes of the same array. *)
Definition window (s v : bsl) (i j : nat) : Prop :=
  i <= j <= b_len s /\ b_arr v = b_arr s /\ b_off v = b_off s + i /\ b_len v = j - i.

(** A call on memory [h] behaves as [u] says, writes to no array it was handed, returns memory of its own when it
    succeeds and the slice it was given when it fails. *)
Definition behaves (h : mem) (json : bsl) (r : option (mupd * mem)) (u : upd) : Prop :=
  match r with
  | None => u = UPanic
  | Some (MDone out, h') => extends h h' /\ valid h' out /\ fresh h out /\ u = Done (content h' out)
  | Some (MFail out e, h') => extends h h' /\ out = json /\ u = Fail (Some (content h json)) e
  end.

(** The same for functions that return bytes only. *)
Definition behaves_res (h : mem) (r : option (bsl * mem)) (u : res bytes) : Prop :=
  match r with
  | None => u = Panic
  | Some (out, h') => extends h h' /\ valid h' out /\ fresh h out /\ u = Ok (content h' out)
  end.

(** ** Programs that use the library *)

(** A program holds byte slices, numbered in the order it obtained them, and makes calls on them: [i] and [v] are such
    numbers.  [CWrite i p c] is the program's own [s[p] = c]. *)
Inductive call : Type :=
| CGet (i : nat) (path : list bytes)
| CSet (i v : nat) (path : list bytes)
| CSetKey (i : nat) (key : bytes) (path : list bytes)
| CDelete (i : nat) (path : list bytes)
| CAdd (i v : nat) (path : list bytes)
| CAddKeyValue (i : nat) (key : bytes) (v : option nat) (path : list bytes)
| CInsert (i : nat) (index : Z) (v : nat) (path : list bytes)
| CStore (i : nat) (key : bytes) (v : option nat) (path : list bytes)
| CFlatten (i : nat)
| CIndent (i : nat)
| CWrite (i p : nat) (c : N).

(** *** With memory *)
Section Sessions.
  Variable grow : nat -> nat.
  Definition the (hs : list bsl) (i : nat) : bsl := nth i hs (Bsl 0 0 0 0).

  (** An update hands back a slice, the new one or the old one, and perhaps an error; Get only one of them. *)
  Definition keep (hs : list bsl) (m : M mupd) : M (list bsl * option err) :=
    let! r := m in ret (match r with MDone out => (hs ++ [out], None) | MFail out e => (hs ++ [out], Some e) end).
  Definition mstep (c : call) (hs : list bsl) : M (list bsl * option err) :=
    match c with
    | CGet i path => let! r := GetM (the hs i) path in ret (match r with inr v => (hs ++ [v], None) | inl e => (hs, Some e) end)
    | CSet i v path => keep hs (SetM grow (the hs i) (the hs v) path)
    | CSetKey i key path => keep hs (SetKeyM grow (the hs i) key path)
    | CDelete i path => keep hs (DeleteM grow (the hs i) path)
    | CAdd i v path => keep hs (AddM grow (the hs i) (the hs v) path)
    | CAddKeyValue i key v path => keep hs (AddKeyValueM grow (the hs i) key (option_map (the hs) v) path)
    | CInsert i index v path => keep hs (InsertM grow (the hs i) index (the hs v) path)
    | CStore i key v path => keep hs (StoreM grow (the hs i) key (option_map (the hs) v) path)
    | CFlatten i => let! out := FlattenM grow (the hs i) in ret (hs ++ [out], None)
    | CIndent i => let! out := IndentM grow (the hs i) in ret (hs ++ [out], None)
    | CWrite i p c => let! _ := store (the hs i) p c in ret (hs, None)
    end.
  Fixpoint mrun (cs : list call) (hs : list bsl) : M (list bsl * list (option err)) :=
    match cs with
    | [] => ret (hs, [])
    | c :: r => let! s := mstep c hs in let! t := mrun r (fst s) in ret (fst t, snd s :: snd t)
    end.
End Sessions.

(** *** Without memory
    Every handle is a byte string of its own, marked with the family it belongs to: what Get cuts out of a document and what
    a failing update hands back belong to the document's family, everything else starts a family. *)
Definition vstate := list (nat * bytes).
Definition fam (vs : vstate) (i : nat) : nat := fst (nth i vs (length vs, [])).
Definition txt (vs : vstate) (i : nat) : bytes := snd (nth i vs (length vs, [])).

Inductive outcome (A : Type) : Type :=
| Next (a : A)        (* the call returned *)
| Crash               (* the call panicked *)
| Shared.             (* the program wrote to bytes that another of its slices may show *)
Arguments Next {A}. Arguments Crash {A}. Arguments Shared {A}.

Definition vkeep (vs : vstate) (i : nat) (u : upd) : outcome (vstate * option err) :=
  match u with
  | Done out => Next (vs ++ [(length vs, out)], None)
  | Fail (Some out) e => Next (vs ++ [(fam vs i, out)], Some e)
  | Fail None e => Next (vs ++ [(length vs, [])], Some e)
  | UPanic => Crash
  end.

(** No other handle is of the same family. *)
Definition sole (vs : vstate) (i : nat) : bool :=
  forallb (fun j => (j =? i) || negb (fam vs j =? fam vs i)) (seq 0 (length vs)).

Definition vwrite (vs : vstate) (i p : nat) (c : N) : vstate :=
  map (fun j => if j =? i then (fam vs j, firstn p (txt vs j) ++ c :: skipn (S p) (txt vs j)) else (fam vs j, txt vs j)) (seq 0 (length vs)).

Definition vstep (c : call) (vs : vstate) : outcome (vstate * option err) :=
  match c with
  | CGet i path => match Get (txt vs i) path with
                   | Ok v => Next (vs ++ [(fam vs i, v)], None)
                   | Err e => Next (vs, Some e)
                   | Panic => Crash
                   end
  | CSet i v path => vkeep vs i (Set_ (txt vs i) (txt vs v) path)
  | CSetKey i key path => vkeep vs i (SetKey (txt vs i) key path)
  | CDelete i path => vkeep vs i (Delete (txt vs i) path)
  | CAdd i v path => vkeep vs i (Add_ (txt vs i) (txt vs v) path)
  | CAddKeyValue i key v path => vkeep vs i (AddKeyValue (txt vs i) key (option_map (txt vs) v) path)
  | CInsert i index v path => vkeep vs i (Insert (txt vs i) index (txt vs v) path)
  | CStore i key v path => vkeep vs i (Store (txt vs i) key (option_map (txt vs) v) path)
  | CFlatten i => Next (vs ++ [(length vs, Flatten (txt vs i))], None)
  | CIndent i => match Indent (txt vs i) with Ok out => Next (vs ++ [(length vs, out)], None) | _ => Crash end
  | CWrite i p c => if p <? length (txt vs i) then (if sole vs i then Next (vwrite vs i p c, None) else Shared) else Crash
  end.
Fixpoint vrun (cs : list call) (vs : vstate) : outcome (vstate * list (option err)) :=
  match cs with
  | [] => Next (vs, [])
  | c :: r =>
      match vstep c vs with
      | Next (vs', e) => match vrun r vs' with Next (vs'', es) => Next (vs'', e :: es) | Crash => Crash | Shared => Shared end
      | Crash => Crash
      | Shared => Shared
      end
  end.

(** The handles show the strings, and different families share no bytes. *)
Definition shows (h : mem) (hs : list bsl) (vs : vstate) : Prop :=
  length hs = length vs /\
  (forall i, i < length hs -> valid h (the hs i) /\ content h (the hs i) = txt vs i /\ fam vs i < length vs) /\
  (forall i j, i < length hs -> j < length hs -> fam vs i <> fam vs j ->
     b_arr (the hs i) <> b_arr (the hs j) \/ b_len (the hs i) = 0 \/ b_len (the hs j) = 0).

(** The program's own write. *)
Definition writes (c : call) : bool := match c with CWrite _ _ _ => true | _ => false end.

(** How a run with memory compares to the run on strings. *)
Definition follows {A} (r : option ((list bsl * A) * mem)) (o : outcome (vstate * A)) : Prop :=
  match o with
  | Next (vs, a) => exists hs h', r = Some ((hs, a), h') /\ shows h' hs vs
  | Crash => r = None
  | Shared => True
  end.
