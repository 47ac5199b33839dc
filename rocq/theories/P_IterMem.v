(** C59: the iterators on memory, with callbacks that write. *)
From Coq Require Import String.
From Verif Require Import GoStd Json SpecIter Parse Errors Api Iter GoMem Mem SpecMem MemProofs IterMem SpecIterMem IterMemProofs IterEdit IterPanic.

Local Open Scope nat_scope.

(** IterateArray on any bytes: the callback is handed parts of the document, and may write to anything but the bytes of the
    document behind the part: the iteration goes as the one over the string the document showed at the start. *)
Theorem C59_array {St StM : Type} (R : St -> StM -> mem -> Prop) (json : bsl) (cb : St -> bytes -> St * (bool * option err))
  (cbM : StM -> bsl -> M (StM * (bool * option err))) (path : list bytes) (s : St) (sm : StM) (h : mem) :
  arr_callback R json cb cbM -> valid h json -> R s sm h ->
  iter_follows R (IterateArrayM json cbM path sm h) (IterateArray (content h json) cb path s).
Proof. exact (array_follows R json cb cbM path s sm h). Qed.
Print Assumptions C59_array.

(** IterateKeyValue on any bytes, with a callback that leaves the document as it is. *)
Theorem C59_key_value {St StM : Type} (R : St -> StM -> mem -> Prop) (json : bsl) (cb : St -> bytes -> bytes -> St * (bool * option err))
  (cbM : StM -> bsl -> bsl -> M (StM * (bool * option err))) (path : list bytes) (s : St) (sm : StM) (h : mem) :
  kv_callback R json cb cbM -> valid h json -> R s sm h ->
  iter_follows R (IterateKeyValueM json cbM path sm h) (IterateKeyValue (content h json) cb path s).
Proof. exact (pairs_follow R json cb cbM path s sm h). Qed.
Print Assumptions C59_key_value.

(** IterateKeyValue over an object of a document: the callback may write to all of the document that is not behind the value. *)
Theorem C59_key_value_edited {St StM : Type} (R : St -> StM -> mem -> Prop) (json : bsl) (cb : St -> bytes -> bytes -> St * (bool * option err))
  (cbM : StM -> bsl -> bsl -> M (StM * (bool * option err))) (d : doc) (path : list bytes) (w : bytes) (ms : list (Json.mem jv)) (s : St) (sm : StM) (h : mem) :
  kv_editor R json cb cbM -> valid h json -> wf_doc d = true -> content h json = text d -> lookup (d_val d) path = Some (JObj w ms) -> ms <> [] ->
  R s sm h -> iter_follows R (IterateKeyValueM json cbM path sm h) (IterateKeyValue (text d) cb path s).
Proof. exact (edits_follow R json cb cbM d path w ms s sm h). Qed.
Print Assumptions C59_key_value_edited.

(** Callbacks that call functions of the package (C51, C54, C58: memory is only added to) qualify, also when they update the
    document they are called on: the iteration goes on over the old one. *)
Theorem C59_updating_callbacks {St StM : Type} (R : St -> StM -> mem -> Prop) (json : bsl) (cb : St -> bytes -> St * (bool * option err))
  (cbM : StM -> bsl -> M (StM * (bool * option err))) :
  (forall s sm h v i j, R s sm h -> valid h json -> valid h v -> window json v i j ->
     exists sm' h', cbM sm v h = Some ((sm', snd (cb s (content h v))), h') /\ R (fst (cb s (content h v))) sm' h' /\ extends h h') ->
  arr_callback R json cb cbM.
Proof. exact (extends_arr R json cb cbM). Qed.
Print Assumptions C59_updating_callbacks.

Theorem C59_updating_callbacks_key_value {St StM : Type} (R : St -> StM -> mem -> Prop) (json : bsl) (cb : St -> bytes -> bytes -> St * (bool * option err))
  (cbM : StM -> bsl -> bsl -> M (StM * (bool * option err))) :
  (forall s sm h k v i j, R s sm h -> valid h json -> valid h k -> valid h v -> window json v i j ->
     content h k = [] \/ (exists i' j', window json k i' j') ->
     exists sm' h', cbM sm k v h = Some ((sm', snd (cb s (content h k) (content h v))), h') /\ R (fst (cb s (content h k) (content h v))) sm' h' /\ extends h h') ->
  kv_callback R json cb cbM.
Proof. exact (extends_kv R json cb cbM). Qed.
Print Assumptions C59_updating_callbacks_key_value.

(** So does one that overwrites what it is handed, byte for byte: every element is seen as it was. *)
Theorem C59_overwriting (x : N) (json : bsl) (path : list bytes) (h : mem) : valid h json ->
  match IterateArrayM json (blot x) path [] h with
  | None => IterateArray (content h json) note path [] = IPanic
  | Some ((ws, e), _) => IterateArray (content h json) note path [] = IDone ws e
  end.
Proof. exact (blot_sees x json path h). Qed.
Print Assumptions C59_overwriting.

(** Callbacks that may panic as well, with the same freedom to write: the iteration panics exactly where, on strings, the one
    panics whose callback stops instead, or that callback has stopped; otherwise they end alike. *)
Theorem C59_panicking_array {St StM : Type} (R : St -> StM -> mem -> Prop) (json : bsl) (cb : St -> bytes -> option (St * (bool * option err)))
  (cbM : StM -> bsl -> M (StM * (bool * option err))) (path : list bytes) (s : St) (sm : StM) (h : mem) :
  risky_callback R json cb cbM -> valid h json -> R s sm h ->
  risky_follows R (IterateArrayM json cbM path sm h) (IterateArray (content h json) (quit cb) path (false, s)).
Proof. exact (risky_array R json cb cbM path s sm h). Qed.
Print Assumptions C59_panicking_array.
Theorem C59_panicking_key_value {St StM : Type} (R : St -> StM -> mem -> Prop) (json : bsl) (cb : St -> bytes -> bytes -> option (St * (bool * option err)))
  (cbM : StM -> bsl -> bsl -> M (StM * (bool * option err))) (path : list bytes) (s : St) (sm : StM) (h : mem) :
  risky_pair_callback R json cb cbM -> valid h json -> R s sm h ->
  risky_follows R (IterateKeyValueM json cbM path sm h) (IterateKeyValue (content h json) (quit2 cb) path (false, s)).
Proof. exact (risky_pairs R json cb cbM path s sm h). Qed.
Print Assumptions C59_panicking_key_value.
Theorem C59_panicking_key_value_edited {St StM : Type} (R : St -> StM -> mem -> Prop) (json : bsl) (cb : St -> bytes -> bytes -> option (St * (bool * option err)))
  (cbM : StM -> bsl -> bsl -> M (StM * (bool * option err))) (d : doc) (path : list bytes) (w : bytes) (ms : list (Json.mem jv)) (s : St) (sm : StM) (h : mem) :
  risky_editor R json cb cbM -> valid h json -> wf_doc d = true -> content h json = text d -> lookup (d_val d) path = Some (JObj w ms) -> ms <> [] ->
  R s sm h -> risky_follows R (IterateKeyValueM json cbM path sm h) (IterateKeyValue (text d) (quit2 cb) path (false, s)).
Proof. exact (risky_edits R json cb cbM d path w ms s sm h). Qed.
Print Assumptions C59_panicking_key_value_edited.

(** The conditions cannot be dropped.  A callback that writes behind the element changes what comes ... *)
Definition C59_any_callback_statement : Prop := forall (json : bsl) (cbM : list bytes -> bsl -> M (list bytes * (bool * option err))) (path : list bytes)
  (h : mem) (sm : list bytes) (e : option err) (h' : mem),
  (forall sm v h, valid h v -> exists h', cbM sm v h = Some ((sm ++ [content h v], (true, None)), h')) ->
  valid h json -> IterateArrayM json cbM path [] h = Some ((sm, e), h') -> IterateArray (content h json) note path [] = IDone sm e.
Theorem C59_any_callback_refuted : ~ C59_any_callback_statement.
Proof. exact writing_shows. Qed.
Print Assumptions C59_any_callback_refuted.

(** ... and off documents IterateKeyValue can hand over again what was edited. *)
Definition C59_statement : Prop := forall (St StM : Type) (R : St -> StM -> mem -> Prop) (json : bsl) (cb : St -> bytes -> bytes -> St * (bool * option err))
  (cbM : StM -> bsl -> bsl -> M (StM * (bool * option err))) (path : list bytes) (s : St) (sm : StM) (h : mem),
  kv_editor R json cb cbM -> valid h json -> R s sm h ->
  iter_follows R (IterateKeyValueM json cbM path sm h) (IterateKeyValue (content h json) cb path s).
Theorem C59_statement_refuted : ~ C59_statement.
Proof. exact editing_shows. Qed.
Print Assumptions C59_statement_refuted.

(** An array and an object in the middle of a larger array of bytes; every value is overwritten as it comes. *)
Definition ex59_mem : mem := [b "__[1, ""x\""y"", [2,3] ]SPARE"; b "{""o"":{""a"":""s"", ""b\"""" : {""c"":[1]}, ""d"":4}}"].
Definition ex59_array : bsl := Bsl 0 2 19 22.
Definition ex59_object : bsl := Bsl 1 0 41 41.
Definition ex59_doc : doc := doc_of (b "{""o"":{""a"":""s"", ""b\"""" : {""c"":[1]}, ""d"":4}}").
Example C59_example :
  valid ex59_mem ex59_array /\ valid ex59_mem ex59_object /\ content ex59_mem ex59_array = b "[1, ""x\""y"", [2,3] ]" /\
  arr_callback (fun s sm _ => s = sm) ex59_array note (blot 88) /\ kv_editor (fun s sm _ => s = sm) ex59_object note2 (blot2 88) /\
  wf_doc ex59_doc = true /\ content ex59_mem ex59_object = text ex59_doc /\
  match IterateArrayM ex59_array (blot 88) [] [] ex59_mem with
  | Some ((ws, e), h') => ws = [b "1"; b "x\""y"; b "[2,3]"] /\ e = None /\ block h' 0 = b "__[X, ""XXXX"", XXXXX ]SPARE"
  | None => False
  end /\
  match IterateKeyValueM ex59_object (blot2 88) [b "o"] [] ex59_mem with
  | Some ((ws, e), h') => ws = [(b "a", b "s"); (b "b\""", b "{""c"":[1]}"); (b "d", b "4")] /\ e = None /\
      block h' 1 = b "{""o"":{""a"":""X"", ""b\"""" : XXXXXXXXX, ""d"":X}}"
  | None => False
  end.
Proof.
  split; [vm_compute; lia|]. split; [vm_compute; lia|]. split; [reflexivity|]. split; [apply blot_follows|]. split; [apply blot2_edits|].
  vm_compute. repeat split.
Qed.
(** A callback that panics on the text given and overwrites every other element: it panics if that text comes. *)
Definition picky (bad : bytes) (ws : list bytes) (t : bytes) : option (list bytes * (bool * option err)) := if bytes_eqb t bad then None else Some (note ws t).
Definition pickyM (bad : bytes) (ws : list bytes) (v : bsl) : M (list bytes * (bool * option err)) := fun h => if bytes_eqb (content h v) bad then None else blot 88 ws v h.
Example C59_panicking_example :
  (forall bad, risky_callback (fun s sm _ => s = sm) ex59_array (picky bad) (pickyM bad)) /\
  IterateArrayM ex59_array (pickyM (b "[2,3]")) [] [] ex59_mem = None /\
  IterateArray (content ex59_mem ex59_array) (quit (picky (b "[2,3]"))) [] (false, []) = IDone (true, [b "1"; b "x\""y"]) None /\
  match IterateArrayM ex59_array (pickyM (b "X")) [] [] ex59_mem with
  | Some ((ws, e), h') => ws = [b "1"; b "x\""y"; b "[2,3]"] /\ e = None /\ block h' 0 = b "__[X, ""XXXX"", XXXXX ]SPARE"
  | None => False
  end /\
  IterateArray (content ex59_mem ex59_array) (quit (picky (b "X"))) [] (false, []) = IDone (false, [b "1"; b "x\""y"; b "[2,3]"]) None.
Proof.
  split; [|vm_compute; repeat split]. intros bad s sm h v i j HR V Vv W. unfold picky, pickyM. destruct (bytes_eqb (content h v) bad); [reflexivity|].
  exact (blot_follows 88 ex59_array s sm h v i j HR V Vv W).
Qed.
