(** A Parser of a document made of nested Go maps and slices (C83). *)
From Coq Require Import String.
From Verif Require Import GoStd Json Spec Domains Errors Core Api Typed SpecTyped SpecParser Parser SpecMade SpecDeep SpecPtr.
From Verif Require Import ParserTypedGo.

Local Open Scope N_scope.

(** The method for a call; Parser has no Store, and its SetString writes a string whatever the text (C30). *)
Definition do_p_mcmd (pf : bytes -> bool) (c : mcmd) (p : parser) : pres :=
  match c with
  | MSet q v => P_Set p (formatType pf (make pf v)) q
  | MDelete q x => P_Delete p (q ++ [x])
  | MStore _ _ _ => PRet p (Some ENullPath)
  | MAddKey q k v => P_AddKeyValueString pf p k (make pf v) q
  | MRename q x k => P_SetKey p k (q ++ [x])
  | MAppend q v => P_AddString pf p (make pf v) q
  | MInsert q i v => P_InsertString pf p i (make pf v) q
  end.
Fixpoint p_run_mcmds (pf : bytes -> bool) (cs : list mcmd) (p : parser) : option parser :=
  match cs with
  | [] => Some p
  | c :: cs => match do_p_mcmd pf c p with PRet p' None => p_run_mcmds pf cs p' | _ => None end
  end.

(** [k] is no key and no index of a part of [m]. *)
Definition m_label_free (m : made) (k : bytes) : Prop :=
  match m with
  | MStr _ => True
  | MMap ps => ~ In k (map fst ps)
  | MList ms => forall i, (i < length ms)%nat -> itoa (Z.of_nat i) <> k
  end.
(** The calls the tree follows: only strings are put in, and in the place of strings or of empty maps and slices; the paths are those of C29; nothing is
    added to an empty root or to a slice of one string; keys are unique where one is deleted or renamed, of a slice only the last element is deleted, and
    a new key is no key or index beside the map it is added to. *)
Definition p_mcmd_ok (m : made) (c : mcmd) : Prop :=
  match c with
  | MSet q v => (exists s, v = MStr s) /\ m_straight m q /\ (m_at m q = Some (MMap []) \/ m_at m q = Some (MList []) \/ exists s, m_at m q = Some (MStr s))
  | MDelete q x => m_straight m (q ++ [x]) /\
      ((exists ps, m_at m q = Some (MMap ps) /\ NoDup (map fst ps)) \/ exists ms u, m_at m q = Some (MList (ms ++ [u])) /\ atoi x = Some (Z.of_nat (length ms)))
  | MStore _ _ _ => False
  | MAddKey q k v => (exists s, v = MStr s) /\ m_straight m q /\ (q = [] -> m <> MMap [] /\ m <> MList []) /\
      forall q0 x u, q = q0 ++ [x] -> m_at m q0 = Some u -> m_label_free u k
  | MRename q x k => m_straight m (q ++ [x]) /\ forall ps, m_at m q = Some (MMap ps) -> NoDup (map fst ps)
  | MAppend q v => (exists s, v = MStr s) /\ m_straight m q /\ (q = [] -> m <> MMap [] /\ m <> MList []) /\ forall s, m_at m q <> Some (MList [MStr s])
  | MInsert _ _ _ => False
  end.
Fixpoint p_m_goes (pf : bytes -> bool) (cs : list mcmd) (m m' : made) : Prop :=
  match cs with
  | [] => m = m'
  | c :: cs => mcmd_ok pf m c /\ p_mcmd_ok m c /\ exists m1, m_effect c m = Some m1 /\ p_m_goes pf cs m1 m'
  end.

(** The same calls of the methods as written in Go (C74) *)
Definition tcmd (pf : bytes -> bool) (c : mcmd) : list tcall :=
  match c with
  | MSet q v => [TCall (CSet (formatType pf (make pf v)) q)]
  | MDelete q x => [TCall (CDelete (q ++ [x]))]
  | MStore _ _ _ => []
  | MAddKey q k v => [TAddKeyValueString k (make pf v) q]
  | MRename q x k => [TCall (CSetKey k (q ++ [x]))]
  | MAppend q v => [TAddString (make pf v) q]
  | MInsert q i v => [TInsertString i (make pf v) q]
  end.

(** The calls that do not apply and are refused: no element of a slice is renamed, and a key is added to a map that has it only at the root. *)
Definition p_m_calm (pf : bytes -> bool) (m : made) (c : mcmd) : Prop :=
  match c with
  | MSet _ _ | MDelete _ _ => True
  | MStore _ _ _ => False
  | MAddKey q k v => k <> [] /\ m_straight m q /\ forall ps, m_at m q = Some (MMap ps) -> q = []
  | MRename q x k => k <> [] /\ m_straight m (q ++ [x]) /\ forall ms, m_at m q <> Some (MList ms)
  | MAppend q v => good pf v /\ m_straight m q
  | MInsert _ _ _ => False
  end.
(** Histories of calls of both kinds, while the length of the text is an int *)
Fixpoint p_m_sures (pf : bytes -> bool) (cs : list mcmd) (m : made) : Prop :=
  match cs with
  | [] => fits (make pf m)
  | c :: cs => fits (make pf m) /\ (if m_applies c m then mcmd_ok pf m c /\ p_mcmd_ok m c else p_m_calm pf m c) /\ p_m_sures pf cs (m_after c m)
  end.
