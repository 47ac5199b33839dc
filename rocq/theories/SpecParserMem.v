(** Specification of what the Parser may do to memory and which memory it keeps. *)
From Coq Require Import String.
From Verif Require Import GoStd Errors Api Parser GoMem Mem SpecMem ParserMem.

(** The bytes the nodes show: a parser of Parser.v. *)
Fixpoint shown (h : mem) (n : mnode) : node :=
  match n with MNode l v d => Node (label_text h l) (content h v) (map (shown h) d) end.
Definition shown_parser (h : mem) (p : mparser) : parser := Par (shown h (mp_core p)) (content h (mp_json p)).

(** The slices a parser holds: its text, and the values and labels of its nodes. *)
Definition label_windows (l : mlabel) : list bsl := match l with Own _ => [] | Seen s => [s] end.
Fixpoint node_windows (n : mnode) : list bsl :=
  match n with MNode l v d => label_windows l ++ v :: flat_map node_windows d end.
Definition held (p : mparser) : list bsl := mp_json p :: node_windows (mp_core p).

(** A slice of an array in [R]; the nil slice and other empty ones are in no array. *)
Definition good (h : mem) (R : nat -> Prop) (w : bsl) : Prop := valid h w /\ (R (b_arr w) \/ b_len w = 0).
Definition keeps (h : mem) (R : nat -> Prop) (p : mparser) : Prop := Forall (good h R) (held p).

(** The arrays of [R] and those made after [h]. *)
Definition or_new (h : mem) (R : nat -> Prop) (a : nat) : Prop := R a \/ length h <= a.

(** An update of a parser on memory [h] goes as [u] says, writes to no array, and the parser then holds slices of
    arrays in [R] and of new arrays only. *)
Definition parser_behaves (h : mem) (R : nat -> Prop) (r : option ((mparser * option err) * mem)) (u : pres) : Prop :=
  match r with
  | None => u = PPanic
  | Some ((p', e), h') => extends h h' /\ keeps h' (or_new h R) p' /\ u = PRet (shown_parser h' p') e
  end.

(** ** Programs that use one parser.  [v] is the number of a slice the program holds. *)
Inductive pcall : Type :=
| QSet (v : nat) (path : list bytes)
| QSetKey (key : bytes) (path : list bytes)
| QDelete (path : list bytes)
| QAdd (v : nat) (path : list bytes)
| QAddKeyValue (key : bytes) (v : nat) (path : list bytes)
| QInsert (index : Z) (v : nat) (path : list bytes)
| QGet (path : list bytes)
| QGetNew (path : list bytes)
| QJSON.

(** With memory: what Get, GetNew and JSON return is a further slice. *)
Section Sessions.
  Variable grow : nat -> nat.
  Definition upd_call (hs : list bsl) (m : PM) : M (mparser * list bsl * option err) :=
    let! r := m in ret (fst r, hs, snd r).
  Definition pstep (c : pcall) (p : mparser) (hs : list bsl) : M (mparser * list bsl * option err) :=
    match c with
    | QSet v path => upd_call hs (P_SetM grow p (the hs v) path)
    | QSetKey key path => upd_call hs (P_SetKeyM grow p key path)
    | QDelete path => upd_call hs (P_DeleteM grow p path)
    | QAdd v path => upd_call hs (P_AddM grow p (the hs v) path)
    | QAddKeyValue key v path => upd_call hs (P_AddKeyValueM grow p key (the hs v) path)
    | QInsert index v path => upd_call hs (P_InsertM grow p index (the hs v) path)
    | QGet path => let! g := P_GetM p path in ret (match g with inr v => (p, hs ++ [v], None) | inl e => (p, hs, Some e) end)
    | QGetNew path => let! v := P_GetNewM grow p path in ret (p, hs ++ [v], None)
    | QJSON => ret (p, hs ++ [P_JSONM p], None)
    end.
  Fixpoint psession (cs : list pcall) (p : mparser) (hs : list bsl) : M (mparser * list bsl * list (option err)) :=
    match cs with
    | [] => ret (p, hs, [])
    | c :: r => let! s := pstep c p hs in let! t := psession r (fst (fst s)) (snd (fst s)) in ret (fst t, snd s :: snd t)
    end.
End Sessions.

(** Without memory; [None] is a panic. *)
Definition v_upd (ts : list bytes) (r : pres) : option (parser * list bytes * option err) :=
  match r with PRet p e => Some (p, ts, e) | PPanic => None end.
Definition vpstep (c : pcall) (p : parser) (ts : list bytes) : option (parser * list bytes * option err) :=
  let val v := nth v ts [] in
  match c with
  | QSet v path => v_upd ts (P_Set p (val v) path)
  | QSetKey key path => v_upd ts (P_SetKey p key path)
  | QDelete path => v_upd ts (P_Delete p path)
  | QAdd v path => v_upd ts (P_Add p (val v) path)
  | QAddKeyValue key v path => v_upd ts (P_AddKeyValue p key (val v) path)
  | QInsert index v path => v_upd ts (P_Insert p index (val v) path)
  | QGet path => match P_Get p path with Ok t => Some (p, ts ++ [t], None) | Err e => Some (p, ts, Some e) | Panic => None end
  | QGetNew path => match P_GetNew p path with Ok t => Some (p, ts ++ [t], None) | _ => None end
  | QJSON => Some (p, ts ++ [P_JSON p], None)
  end.
Fixpoint vpsession (cs : list pcall) (p : parser) (ts : list bytes) : option (parser * list bytes * list (option err)) :=
  match cs with
  | [] => Some (p, ts, [])
  | c :: r =>
      match vpstep c p ts with
      | Some (p', ts', e) => match vpsession r p' ts' with Some (p'', ts'', es) => Some (p'', ts'', e :: es) | None => None end
      | None => None
      end
  end.
