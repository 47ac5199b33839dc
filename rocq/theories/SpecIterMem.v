(** Specification: a callback on memory and a callback on strings that do the same. *)
From Coq Require Import String.
From Verif Require Import GoStd Errors Iter GoMem SpecMem.

Section Callbacks.
  Context {St StM : Type}.
  (** [R s sm h]: what the callback on strings remembers, what the one on memory remembers, and the memory, belong together. *)
  Variable R : St -> StM -> mem -> Prop.

  (** Handed any part of the document, the callback on memory answers as the one on strings does for the bytes of that part.
      It may write anywhere but to the bytes of the document behind that part. *)
  Definition arr_callback (json : bsl) (cb : St -> bytes -> St * (bool * option err)) (cbM : StM -> bsl -> M (StM * (bool * option err))) : Prop :=
    forall s sm h v i j, R s sm h -> valid h json -> valid h v -> window json v i j ->
    exists sm' h', cbM sm v h = Some ((sm', snd (cb s (content h v))), h') /\ R (fst (cb s (content h v))) sm' h' /\
      valid h' json /\ skipn j (content h' json) = skipn j (content h json).

  (** The same for a key and a value; the document is not written to. *)
  Definition kv_callback (json : bsl) (cb : St -> bytes -> bytes -> St * (bool * option err))
    (cbM : StM -> bsl -> bsl -> M (StM * (bool * option err))) : Prop :=
    forall s sm h k v i j, R s sm h -> valid h json -> valid h k -> valid h v -> window json v i j ->
    content h k = [] \/ (exists i' j', window json k i' j') ->
    exists sm' h', cbM sm k v h = Some ((sm', snd (cb s (content h k) (content h v))), h') /\ R (fst (cb s (content h k) (content h v))) sm' h' /\
      valid h' json /\ content h' json = content h json.

  (** The same, but the callback may write to whatever of the document is not behind the value. *)
  Definition kv_editor (json : bsl) (cb : St -> bytes -> bytes -> St * (bool * option err))
    (cbM : StM -> bsl -> bsl -> M (StM * (bool * option err))) : Prop :=
    forall s sm h k v i j, R s sm h -> valid h json -> valid h k -> valid h v -> window json v i j -> (exists i' j', window json k i' j') ->
    exists sm' h', cbM sm k v h = Some ((sm', snd (cb s (content h k) (content h v))), h') /\ R (fst (cb s (content h k) (content h v))) sm' h' /\
      valid h' json /\ skipn j (content h' json) = skipn j (content h json).

  (** An iteration on memory ends as the one on strings does. *)
  Definition iter_follows (r : option ((StM * option err) * mem)) (u : itres St) : Prop :=
    match r with
    | None => u = IPanic
    | Some ((sm, e), h) => exists s, u = IDone s e /\ R s sm h
    end.
End Callbacks.

(** Callbacks that may panic: on strings, [None]. *)
Section Panicking.
  Context {St StM : Type}.
  Variable R : St -> StM -> mem -> Prop.

  (** The two answer alike or panic alike; what was written is lost with the panic. *)
  Definition risky_callback (json : bsl) (cb : St -> bytes -> option (St * (bool * option err))) (cbM : StM -> bsl -> M (StM * (bool * option err))) : Prop :=
    forall s sm h v i j, R s sm h -> valid h json -> valid h v -> window json v i j ->
    match cb s (content h v) with
    | None => cbM sm v h = None
    | Some (s', ge) => exists sm' h', cbM sm v h = Some ((sm', ge), h') /\ R s' sm' h' /\ valid h' json /\ skipn j (content h' json) = skipn j (content h json)
    end.
  Definition risky_pair_callback (json : bsl) (cb : St -> bytes -> bytes -> option (St * (bool * option err)))
    (cbM : StM -> bsl -> bsl -> M (StM * (bool * option err))) : Prop :=
    forall s sm h k v i j, R s sm h -> valid h json -> valid h k -> valid h v -> window json v i j ->
    content h k = [] \/ (exists i' j', window json k i' j') ->
    match cb s (content h k) (content h v) with
    | None => cbM sm k v h = None
    | Some (s', ge) => exists sm' h', cbM sm k v h = Some ((sm', ge), h') /\ R s' sm' h' /\ valid h' json /\ content h' json = content h json
    end.
  Definition risky_editor (json : bsl) (cb : St -> bytes -> bytes -> option (St * (bool * option err)))
    (cbM : StM -> bsl -> bsl -> M (StM * (bool * option err))) : Prop :=
    forall s sm h k v i j, R s sm h -> valid h json -> valid h k -> valid h v -> window json v i j -> (exists i' j', window json k i' j') ->
    match cb s (content h k) (content h v) with
    | None => cbM sm k v h = None
    | Some (s', ge) => exists sm' h', cbM sm k v h = Some ((sm', ge), h') /\ R s' sm' h' /\ valid h' json /\ skipn j (content h' json) = skipn j (content h json)
    end.

  (** The callback that asks for no more, and remembers that, where the other panics. *)
  Definition quits (s : St) (r : option (St * (bool * option err))) : (bool * St) * (bool * option err) :=
    match r with None => ((true, s), (false, None)) | Some (s', ge) => ((false, s'), ge) end.
  Definition quit (cb : St -> bytes -> option (St * (bool * option err))) (s : bool * St) (v : bytes) := quits (snd s) (cb (snd s) v).
  Definition quit2 (cb : St -> bytes -> bytes -> option (St * (bool * option err))) (s : bool * St) (k v : bytes) := quits (snd s) (cb (snd s) k v).

  (** The iteration panics exactly if that on strings does or its callback quits; else they end alike. *)
  Definition risky_follows (r : option ((StM * option err) * mem)) (u : itres (bool * St)) : Prop :=
    match r with
    | None => u = IPanic \/ exists s e, u = IDone (true, s) e
    | Some ((sm, e), h) => exists s, u = IDone (false, s) e /\ R s sm h
    end.
End Panicking.
