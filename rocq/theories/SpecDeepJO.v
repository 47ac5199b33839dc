(** A JO that holds a document made of nested Go maps and slices (C82). *)
From Coq Require Import String.
From Verif Require Import GoStd Errors Core Api Typed SpecMade SpecDeep.
From Verif Require JO AsWritten SpecDeepGo.

(** The method for a call.  StoreString writes its text as it is (C40), so Store is given the text the Make functions write. *)
Definition jcmd (pf : bytes -> bool) (c : mcmd) : JO.jcall :=
  match c with
  | MSet p v => JO.CSetString (make pf v) p
  | MDelete p x => JO.CDelete (p ++ [x])
  | MStore p k v => JO.CStore k (Some (formatType pf (make pf v))) p
  | MAddKey p k v => JO.CAddKeyValueString k (make pf v) p
  | MRename p x k => JO.CSetKey k (p ++ [x])
  | MAppend p v => JO.CAddString (make pf v) p
  | MInsert p i v => JO.CInsertString i (make pf v) p
  end.
(** The same with StoreString. *)
Definition jcmd_string (pf : bytes -> bool) (c : mcmd) : JO.jcall :=
  match c with MStore p k v => JO.CStoreString k (make pf v) p | _ => jcmd pf c end.

(** Calls one after another, those that do not apply changing nothing *)
Fixpoint m_sures (pf : bytes -> bool) (cs : list mcmd) (m : made) : Prop :=
  match cs with [] => True | c :: cs => m_sure pf m c /\ m_sures pf cs (m_after c m) end.
Definition m_final (cs : list mcmd) (m : made) : made := fold_left (fun m c => m_after c m) cs m.
Fixpoint m_applied (cs : list mcmd) (m : made) : list bool :=
  match cs with [] => [] | c :: cs => m_applies c m :: m_applied cs (m_after c m) end.
(** No error where the call applies, one where it does not *)
Definition told_by (es : list (option err)) : list bool := map (fun e => match e with None => true | Some _ => false end) es.
