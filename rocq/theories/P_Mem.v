(** C51: what the interpreter functions do to the memory they are handed, and whose memory they hand back. *)
From Coq Require Import String.
From Verif Require Import GoStd Core Errors Api Format GoMem Mem SpecMem MemProofs MemSession.

Local Open Scope nat_scope.

(** Get: the same bytes as the by-value model says, as a window of the document; memory is as it was. *)
Theorem C51_get (h : mem) (json : bsl) (path : list bytes) : valid h json ->
  match GetM json path h with
  | None => Get (content h json) path = Panic
  | Some (inl e, h') => h' = h /\ Get (content h json) path = Err e
  | Some (inr v, h') => h' = h /\ valid h v /\ (exists i j, window json v i j) /\ Get (content h json) path = Ok (content h v)
  end.
Proof. exact (GetM_spec h json path). Qed.
Print Assumptions C51_get.

(** The updates. *)
Theorem C51_set (grow : nat -> nat) (h : mem) (json new : bsl) (path : list bytes) : valid h json -> valid h new ->
  behaves h json (SetM grow json new path h) (Set_ (content h json) (content h new) path).
Proof. exact (SetM_spec grow h json new path). Qed.
Print Assumptions C51_set.

Theorem C51_set_key (grow : nat -> nat) (h : mem) (json : bsl) (key : bytes) (path : list bytes) : valid h json ->
  behaves h json (SetKeyM grow json key path h) (SetKey (content h json) key path).
Proof. exact (SetKeyM_spec grow h json key path). Qed.
Print Assumptions C51_set_key.

Theorem C51_delete (grow : nat -> nat) (h : mem) (json : bsl) (path : list bytes) : valid h json ->
  behaves h json (DeleteM grow json path h) (Delete (content h json) path).
Proof. exact (DeleteM_spec grow h json path). Qed.
Print Assumptions C51_delete.

Theorem C51_add (grow : nat -> nat) (h : mem) (json value : bsl) (path : list bytes) : valid h json -> valid h value ->
  behaves h json (AddM grow json value path h) (Add_ (content h json) (content h value) path).
Proof. exact (AddM_spec grow h json value path). Qed.
Print Assumptions C51_add.

Theorem C51_add_key_value (grow : nat -> nat) (h : mem) (json : bsl) (key : bytes) (value : option bsl) (path : list bytes) :
  valid h json -> (forall v, value = Some v -> valid h v) ->
  behaves h json (AddKeyValueM grow json key value path h) (AddKeyValue (content h json) key (option_map (content h) value) path).
Proof. exact (AddKeyValueM_spec grow h json key value path). Qed.
Print Assumptions C51_add_key_value.

Theorem C51_insert (grow : nat -> nat) (h : mem) (json : bsl) (index : Z) (value : bsl) (path : list bytes) :
  valid h json -> valid h value ->
  behaves h json (InsertM grow json index value path h) (Insert (content h json) index (content h value) path).
Proof. exact (InsertM_spec grow h json index value path). Qed.
Print Assumptions C51_insert.

Theorem C51_store (grow : nat -> nat) (h : mem) (json : bsl) (key : bytes) (value : option bsl) (path : list bytes) :
  valid h json -> (forall v, value = Some v -> valid h v) ->
  behaves h json (StoreM grow json key value path h) (Store (content h json) key (option_map (content h) value) path).
Proof. exact (StoreM_spec grow h json key value path). Qed.
Print Assumptions C51_store.

(** Formatting. *)
Theorem C51_flatten (grow : nat -> nat) (h : mem) (json : bsl) : valid h json ->
  behaves_res h (FlattenM grow json h) (Ok (Flatten (content h json))).
Proof. exact (FlattenM_behaves grow h json). Qed.
Print Assumptions C51_flatten.

Theorem C51_indent (grow : nat -> nat) (h : mem) (json : bsl) : valid h json ->
  behaves_res h (IndentM grow json h) (Indent (content h json)).
Proof. exact (IndentM_spec grow h json). Qed.
Print Assumptions C51_indent.

(** A successful update and every slice that existed before do not see each other's writes. *)
Theorem C51_success_is_independent (h : mem) (json : bsl) (r : mupd * mem) (u : upd) (out t : bsl) :
  behaves h json (Some r) u -> fst r = MDone out -> valid h t -> forall p c h',
  (store t p c (snd r) = Some (tt, h') -> content h' out = content (snd r) out) /\
  (store out p c (snd r) = Some (tt, h') -> content h' t = content h t).
Proof. exact (success_independent h json r u out t). Qed.
Print Assumptions C51_success_is_independent.

(** Whole programs: any sequence of calls on slices of one another, with writes of the program's own to slices whose bytes
    no other of its slices can show, goes as if every slice were a string. *)
Theorem C51_programs (grow : nat -> nat) (cs : list call) (h : mem) (hs : list bsl) (vs : vstate) :
  shows h hs vs -> follows (mrun grow cs hs h) (vrun cs vs).
Proof. exact (mrun_follows grow cs h hs vs). Qed.
Print Assumptions C51_programs.

(** Without writes of its own: always, and no slice that was valid at the start ever shows anything else. *)
Theorem C51_programs_that_only_call (grow : nat -> nat) (cs : list call) (h : mem) (hs : list bsl) (vs : vstate) :
  shows h hs vs -> forallb (fun c => negb (writes c)) cs = true ->
  match mrun grow cs hs h with
  | None => vrun cs vs = Crash
  | Some ((hs', es), h') =>
      exists more vmore, hs' = hs ++ more /\ vrun cs vs = Next (vs ++ vmore, es) /\ shows h' hs' (vs ++ vmore) /\
        forall s, valid h s -> content h' s = content h s
  end.
Proof. exact (mrun_keeps grow cs h hs vs). Qed.
Print Assumptions C51_programs_that_only_call.

(** The condition on writes cannot be dropped: what Get hands out is the document's own memory ... *)
Definition C51_get_copies_statement : Prop := forall (h : mem) (json v : bsl) (path : list bytes) (p : nat) (c : N) (h' : mem),
  valid h json -> path <> [] -> GetM json path h = Some (inr v, h) -> store v p c h = Some (tt, h') -> content h' json = content h json.
Theorem C51_get_copies_refuted : ~ C51_get_copies_statement.
Proof. exact get_shares. Qed.
Print Assumptions C51_get_copies_refuted.

(** ... and a failing update hands back the slice it was given. *)
Definition C51_update_copies_statement : Prop := forall (h : mem) (json new out : bsl) (path : list bytes) (e : err) (h' h'' : mem) (p : nat) (c : N),
  valid h json -> valid h new -> SetM (fun _ => 0) json new path h = Some (MFail out e, h') -> store out p c h' = Some (tt, h'') ->
  content h'' json = content h json.
Theorem C51_update_copies_refuted : ~ C51_update_copies_statement.
Proof. exact failed_update_shares. Qed.
Print Assumptions C51_update_copies_refuted.

(** A document in the middle of an array, with spare capacity behind it, and a value in the same array. *)
Definition ex51_mem : mem := [b "__{""a"":[1, 2],""b"":3}SPARE"; b """new"""].
Definition ex51_doc : bsl := Bsl 0 2 18 23.
Definition ex51_val : bsl := Bsl 1 0 5 5.
Definition ex51_part : bsl := Bsl 0 7 6 18.   (* [1, 2] *)
Definition ex51_vs : vstate := [(0, b "{""a"":[1, 2],""b"":3}"); (1, b """new"""); (0, b "[1, 2]")].
Definition ex51_calls : list call :=
  [CSet 0 1 [b "b"]; CGet 3 [b "a"]; CAdd 4 1 []; CInsert 3 0 1 [b "a"]; CStore 0 (b "a") (Some 1) []; CStore 6 (b "c") None [];
   CDelete 7 [b "a"; b "5"]; CSetKey 8 (b "z") [b "b"]; CIndent 10; CFlatten 11; CWrite 12 0 91%N; CGet 10 [b "nope"];
   CAddKeyValue 10 (b "d") (Some 1) []].
Example C51_example : shows ex51_mem [ex51_doc; ex51_val; ex51_part] ex51_vs /\
  match vrun ex51_calls ex51_vs with
  | Next (vs, es) => length vs = 14 /\ txt vs 12 = b "[""a"":[""new"",1,2],""z"":""new"",""c"":null}" /\
      txt vs 13 = b "{""a"":[""new"",1, 2],""z"":""new"",""c"":null,""d"":""new""}" /\
      map (fun e => match e with Some _ => 1 | None => 0 end) es = [0; 0; 0; 0; 0; 0; 1; 0; 0; 0; 0; 1; 0]
  | _ => False
  end /\
  match mrun (fun n => n) ex51_calls [ex51_doc; ex51_val; ex51_part] ex51_mem with
  | Some ((hs, es), h) =>
      content h (the hs 3) = b "{""a"":[1, 2],""b"":""new""}" /\ content h (the hs 5) = b "[1, 2,""new""]" /\
      content h (the hs 0) = b "{""a"":[1, 2],""b"":3}" /\ nth 0 h [] = b "__{""a"":[1, 2],""b"":3}SPARE" /\
      b_arr (the hs 4) = b_arr (the hs 3) /\ the hs 9 = the hs 7 /\
      content h (the hs 13) = b "{""a"":[""new"",1, 2],""z"":""new"",""c"":null,""d"":""new""}"
  | None => False
  end.
Proof.
  split.
  - split; [reflexivity|]. split.
    + intros i Hi. destruct i as [|[|[|i]]]; [..|cbn in Hi; lia]; (split; [|split]); (reflexivity || (vm_compute; lia)).
    + intros i j Hi Hj N. destruct i as [|[|[|i]]]; [..|cbn in Hi; lia]; (destruct j as [|[|[|j]]]; [..|cbn in Hj; lia]);
        (contradiction N; reflexivity) || (left; discriminate).
  - vm_compute. repeat split; reflexivity.
Qed.
