(** C54: what the Parser does to the memory it is handed, which memory it keeps, and whose memory it hands back. *)
From Coq Require Import String.
From Verif Require Import GoStd Errors Api Parser GoMem Mem SpecMem MemProofs ParserMem SpecParserMem ParserMemProofs.

Local Open Scope nat_scope.

(** [R] is the set of arrays the parser may hold slices of ([keeps h R p]); [good h R v] is a slice of one of them.  For any
    program it can be all arrays there are. *)

(** Parse: the parser of the by-value model, holding slices of the document only; memory is as it was. *)
Theorem C54_parse (h : mem) (R : nat -> Prop) (json : bsl) : good h R json ->
  match ParseM json h with
  | None => Parse (content h json) = Panic
  | Some (inl e, h') => h' = h /\ Parse (content h json) = Err e
  | Some (inr p, h') => h' = h /\ keeps h R p /\ Parse (content h json) = Ok (shown_parser h p)
  end.
Proof. exact (ParseM_spec h R json). Qed.
Print Assumptions C54_parse.

(** Get: memory is as it was, and what is returned is a window of a slice the parser holds. *)
Theorem C54_get (h : mem) (R : nat -> Prop) (p : mparser) (path : list bytes) : keeps h R p ->
  match P_GetM p path h with
  | None => P_Get (shown_parser h p) path = Panic
  | Some (inl e, h') => h' = h /\ P_Get (shown_parser h p) path = Err e
  | Some (inr v, h') => h' = h /\ valid h v /\ (exists w i j, In w (held p) /\ window w v i j) /\ good h R v /\
      P_Get (shown_parser h p) path = Ok (content h v)
  end.
Proof. exact (P_GetM_spec h R p path). Qed.
Print Assumptions C54_get.

(** GetNew: no array is written to; what is returned is such a window or new memory ... *)
Theorem C54_get_new (grow : nat -> nat) (h : mem) (R : nat -> Prop) (p : mparser) (path : list bytes) : keeps h R p ->
  match P_GetNewM grow p path h with
  | None => P_GetNew (shown_parser h p) path = Panic
  | Some (v, h') => extends h h' /\ valid h' v /\ ((exists w i j, In w (nil_ :: held p) /\ window w v i j) \/ fresh h v) /\
      P_GetNew (shown_parser h p) path = Ok (content h' v)
  end.
Proof. exact (P_GetNewM_ok grow h R p path). Qed.
Print Assumptions C54_get_new.

(** ... and new memory wherever there are children. *)
Theorem C54_get_new_own (grow : nat -> nat) (h : mem) (R : nat -> Prop) (p : mparser) (path : list bytes) (n : node) (v : bsl) (h' : mem) :
  keeps h R p -> n_walk (p_core (shown_parser h p)) path = Ok n -> n_down n <> [] -> P_GetNewM grow p path h = Some (v, h') -> fresh h v.
Proof. exact (P_GetNewM_own grow h R p path n v h'). Qed.
Print Assumptions C54_get_new_own.

(** The updates: as the by-value model says, without a write to any array there was, and the parser holds afterwards slices
    of arrays of [R] and of new ones only. *)
Theorem C54_set (grow : nat -> nat) (h : mem) (R : nat -> Prop) (p : mparser) (v : bsl) (path : list bytes) : keeps h R p -> good h R v ->
  parser_behaves h R (P_SetM grow p v path h) (P_Set (shown_parser h p) (content h v) path).
Proof. exact (fun K => P_SetM_ok grow h R p K v path). Qed.
Print Assumptions C54_set.

Theorem C54_set_key (grow : nat -> nat) (h : mem) (R : nat -> Prop) (p : mparser) (key : bytes) (path : list bytes) : keeps h R p ->
  parser_behaves h R (P_SetKeyM grow p key path h) (P_SetKey (shown_parser h p) key path).
Proof. exact (fun K => P_SetKeyM_ok grow h R p K key path). Qed.
Print Assumptions C54_set_key.

Theorem C54_delete (grow : nat -> nat) (h : mem) (R : nat -> Prop) (p : mparser) (path : list bytes) : keeps h R p ->
  parser_behaves h R (P_DeleteM grow p path h) (P_Delete (shown_parser h p) path).
Proof. exact (fun K => P_DeleteM_ok grow h R p K path). Qed.
Print Assumptions C54_delete.

Theorem C54_add (grow : nat -> nat) (h : mem) (R : nat -> Prop) (p : mparser) (v : bsl) (path : list bytes) : keeps h R p -> good h R v ->
  parser_behaves h R (P_AddM grow p v path h) (P_Add (shown_parser h p) (content h v) path).
Proof. exact (fun K => P_AddM_ok grow h R p K v path). Qed.
Print Assumptions C54_add.

Theorem C54_add_key_value (grow : nat -> nat) (h : mem) (R : nat -> Prop) (p : mparser) (key : bytes) (v : bsl) (path : list bytes) :
  keeps h R p -> good h R v ->
  parser_behaves h R (P_AddKeyValueM grow p key v path h) (P_AddKeyValue (shown_parser h p) key (content h v) path).
Proof. exact (fun K => P_AddKeyValueM_ok grow h R p K key v path). Qed.
Print Assumptions C54_add_key_value.

Theorem C54_insert (grow : nat -> nat) (h : mem) (R : nat -> Prop) (p : mparser) (index : Z) (v : bsl) (path : list bytes) :
  keeps h R p -> good h R v ->
  parser_behaves h R (P_InsertM grow p index v path h) (P_Insert (shown_parser h p) index (content h v) path).
Proof. exact (fun K => P_InsertM_ok grow h R p K index v path). Qed.
Print Assumptions C54_insert.

(** Whole programs: any sequence of calls on one parser, the arguments being slices the program had or was handed by the
    parser, goes as if every slice were a string, and no array the program knew is ever written to. *)
Theorem C54_programs (grow : nat -> nat) (cs : list pcall) (h : mem) (R : nat -> Prop) (p : mparser) (hs : list bsl) :
  keeps h R p -> Forall (good h R) hs ->
  match psession grow cs p hs h with
  | None => vpsession cs (shown_parser h p) (map (content h) hs) = None
  | Some (p', hs', es, h') => extends h h' /\ keeps h' (or_new h R) p' /\ Forall (good h' (or_new h R)) hs' /\
      vpsession cs (shown_parser h p) (map (content h) hs) = Some (shown_parser h' p', map (content h') hs', es)
  end.
Proof. exact (psession_ok grow cs h R p hs). Qed.
Print Assumptions C54_programs.

(** The program may write to arrays the parser was given nothing of. *)
Theorem C54_writes_elsewhere (h : mem) (R : nat -> Prop) (p : mparser) (s : bsl) (i : nat) (xs : bytes) :
  keeps h R p -> ~ R (b_arr s) -> valid h s -> i + length xs <= b_cap s ->
  keeps (poke s i xs h) R p /\ shown_parser (poke s i xs h) p = shown_parser h p.
Proof. exact (poke_unheld h R p s i xs). Qed.
Print Assumptions C54_writes_elsewhere.

(** It may not write to the others: Parse does not copy the document ... *)
Definition C54_parse_copies_statement : Prop := forall (h : mem) (json : bsl) (p : mparser) (pos : nat) (c : N) (h' : mem),
  valid h json -> ParseM json h = Some (inr p, h) -> store json pos c h = Some (tt, h') ->
  p_core (shown_parser h' p) = p_core (shown_parser h p).
Theorem C54_parse_copies_refuted : ~ C54_parse_copies_statement.
Proof. exact parse_shares. Qed.
Print Assumptions C54_parse_copies_refuted.

(** ... and keeps parts of it even after the text was made anew by an update ... *)
Definition C54_update_copies_statement : Prop := forall (grow : nat -> nat) (h : mem) (json v : bsl) (p : mparser) (path : list bytes) (p' : mparser)
  (h' : mem) (pos : nat) (c : N) (h'' : mem), valid h json -> valid h v -> ParseM json h = Some (inr p, h) ->
  P_SetM grow p v path h = Some (p', None, h') -> store json pos c h' = Some (tt, h'') -> shown_parser h'' p' = shown_parser h' p'.
Theorem C54_update_copies_refuted : ~ C54_update_copies_statement.
Proof. exact update_shares. Qed.
Print Assumptions C54_update_copies_refuted.

(** ... Set keeps the value it was given ... *)
Definition C54_value_copies_statement : Prop := forall (grow : nat -> nat) (h : mem) (json v : bsl) (p : mparser) (path : list bytes) (p' : mparser)
  (h' : mem) (pos : nat) (c : N) (h'' : mem), valid h json -> valid h v -> ParseM json h = Some (inr p, h) ->
  P_SetM grow p v path h = Some (p', None, h') -> store v pos c h' = Some (tt, h'') -> shown_parser h'' p' = shown_parser h' p'.
Theorem C54_value_copies_refuted : ~ C54_value_copies_statement.
Proof. exact value_shares. Qed.
Print Assumptions C54_value_copies_refuted.

(** ... and GetNew of a plain value is not new memory. *)
Definition C54_get_new_copies_statement : Prop := forall (grow : nat -> nat) (h : mem) (json : bsl) (p : mparser) (path : list bytes) (v : bsl) (h' : mem),
  valid h json -> ParseM json h = Some (inr p, h) -> P_GetNewM grow p path h = Some (v, h') -> fresh h v.
Theorem C54_get_new_copies_refuted : ~ C54_get_new_copies_statement.
Proof. exact getnew_shares. Qed.
Print Assumptions C54_get_new_copies_refuted.

(** A document in the middle of an array, and values next to it in the same array. *)
Definition ex54_mem : mem := [b "[1]{""a"":[1, 2],""b"":{""c"":""x"",""d"":3}}SPARE"; b "{""n"":[5, 6]}"].
Definition ex54_doc : bsl := Bsl 0 3 32 37.
Definition ex54_small : bsl := Bsl 0 0 3 40.
Definition ex54_new : bsl := Bsl 1 0 12 12.
Definition ex54_parser : mparser := match ParseM ex54_doc ex54_mem with Some (inr p, _) => p | _ => MPar (MNode (Own []) nil_ []) nil_ end.
Definition ex54_calls : list pcall :=
  [QGetNew [b "b"]; QSet 1 [b "b"; b "c"]; QGet [b "b"; b "c"; b "0"; b "n"]; QAdd 3 [b "a"]; QAddKeyValue (b "kk") 0 []; QInsert 1 1 [b "a"];
   QSetKey (b "z") [b "b"]; QDelete [b "b"; b "d"]; QDelete [b "z"; b "d"]; QGetNew []; QJSON].
Example C54_example :
  keeps ex54_mem (fun a => a < 2) ex54_parser /\ Forall (good ex54_mem (fun a => a < 2)) [ex54_small; ex54_new] /\
  p_json (shown_parser ex54_mem ex54_parser) = b "{""a"":[1, 2],""b"":{""c"":""x"",""d"":3}}" /\
  match vpsession ex54_calls (shown_parser ex54_mem ex54_parser) (map (content ex54_mem) [ex54_small; ex54_new]) with
  | Some (p', ts, es) => nth 2 ts [] = b "{""c"":""x"",""d"":3}" /\ nth 3 ts [] = b "[5, 6]" /\ length ts = 6 /\ length (filter (fun e => match e with Some _ => true | None => false end) es) = 1 /\
      nth 5 ts [] = b "{""a"":[1, {""n"":[5, 6]},2,[5, 6]],""z"":{""c"":{""n"":[5, 6]}},""kk"":[1]}"
  | None => False
  end /\
  match psession (fun _ => 3) ex54_calls ex54_parser [ex54_small; ex54_new] ex54_mem with
  | Some (p', hs, es, h') => firstn 2 h' = ex54_mem /\ 2 < length h'
  | None => False
  end.
Proof.
  split; [|split].
  - unfold keeps. let l := eval vm_compute in (held ex54_parser) in change (held ex54_parser) with l. do 12 (constructor; [split; [split; apply Nat.leb_le; vm_compute; reflexivity|left; cbn; lia]|]). constructor.
  - do 2 (constructor; [split; [split; apply Nat.leb_le; vm_compute; reflexivity|left; cbn; lia]|]). constructor.
  - vm_compute. repeat split; try reflexivity. lia.
Qed.
