(** The calls of C80 made of the functions as written in Go (C81). *)
From Coq Require Import String.
From Verif Require Import GoStd Json Spec Errors Core Api GoLang AsWritten UpdateGo TypedGo SpecMade SpecDeep.
From Verif Require MakeGo.

(** One call after another *)
Definition after {A B : Type} (f : flow unit A) (g : A -> flow unit B) : flow unit B :=
  match f with Ret a => g a | Out => Out | _ => Pan end.

(** As [make]: the texts of the values first (make.go:189-202 and 350-367) *)
Fixpoint make_go (pf : bytes -> bool) (m : made) : flow unit bytes :=
  match m with
  | MStr s => Ret s
  | MMap ps =>
      after ((fix each (ps : list (bytes * made)) : flow unit (list (bytes * bytes)) :=
                match ps with
                | [] => Ret []
                | (k, v) :: r => after (make_go pf v) (fun t => after (each r) (fun l => Ret ((k, t) :: l)))
                end) ps) (fun l => MakeGo.MakeJsonWithMap_go pf (nonnil l))
  | MList ms =>
      after ((fix each (ms : list made) : flow unit (list bytes) :=
                match ms with
                | [] => Ret []
                | v :: r => after (make_go pf v) (fun t => after (each r) (fun l => Ret (t :: l)))
                end) ms) (fun l => MakeGo.MakeArrayString_go pf (nonnil l))
  end.

(** A call, and calls one after another until one fails *)
Definition do_mcmd_go (fuel : nat) (pf : bytes -> bool) (c : mcmd) (t : bytes) : flow unit (bytes * option err) :=
  match c with
  | MSet p v => after (make_go pf v) (fun x => SetString_t fuel pf t x p)
  | MDelete p x => Delete_go fuel t (p ++ [x])
  | MStore p k v => after (make_go pf v) (fun x => StoreString_t fuel pf t k x p)
  | MAddKey p k v => after (make_go pf v) (fun x => AddKeyValueString_t fuel pf t k x p)
  | MRename p x k => SetKey_go fuel t k (p ++ [x])
  | MAppend p v => after (make_go pf v) (fun x => AddString_t fuel pf t x p)
  | MInsert p i v => after (make_go pf v) (fun x => InsertString_t fuel pf t i x p)
  end.
Fixpoint run_mcmds_go (fuel : nat) (pf : bytes -> bool) (cs : list mcmd) (t : bytes) : flow unit (bytes * option err) :=
  match cs with
  | [] => Ret (t, None)
  | c :: r => after (do_mcmd_go fuel pf c t) (fun o => match snd o with None => run_mcmds_go fuel pf r (fst o) | Some _ => Ret o end)
  end.

(** Strings and keys are made of bytes. *)
Fixpoint m_octets (m : made) : Prop :=
  match m with
  | MStr s => octets s
  | MMap ps => fold_right (fun kv P => octets (fst kv) /\ m_octets (snd kv) /\ P) True ps
  | MList ms => fold_right (fun m P => m_octets m /\ P) True ms
  end.
Definition mcmd_octets (c : mcmd) : Prop :=
  match c with
  | MSet _ v | MAppend _ v | MInsert _ _ v => m_octets v
  | MStore _ k v | MAddKey _ k v => octets k /\ m_octets v
  | MRename _ _ k => octets k
  | MDelete _ _ => True
  end.
