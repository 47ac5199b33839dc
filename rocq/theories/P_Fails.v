(** Property C56: failed lookups, and calls that cannot mean anything. *)
From Coq Require Import String.
From Verif Require Import GoStd Core Errors Api Typed Iter SpecFails LookupFails.

Local Open Scope N_scope.

(** ** C56

    Any bytes, any path.  Full statement: where Get fails every other function fails, with the same error.  False: Length and
    GetMap answer on [{}] and [[]] whatever the path, IsObject, IsArray, IsValue and GetType look no further than the first
    byte ([C56_statement_refuted]).  Proved for the others, and for these functions for every error that is not about the value
    the path leads to. *)
Definition C56_statement : Prop := forall (pf : bytes -> bool) json p e, Get json p = Err e ->
  GetInt json p = Err e /\ GetBool json p = Err e /\ GetStringArray json p = Err e /\ IsEmpty json p = Err e /\
  Length json p = Err e /\ GetMap json p = Err e /\ GetKeys json p = Err e /\ GetValues json p = Err e /\
  IsObject json p = Err e /\ IsArray json p = Err e /\ IsValue json p = Err e /\ GetType pf json p = Err e.

(** The error of a lookup is one of these, and the key it names is one of the path. *)
Theorem C56_lookup_errors : forall json p e, Get json p = Err e -> lookup_error p e.
Proof. exact get_errors. Qed.
Print Assumptions C56_lookup_errors.

Theorem C56_reads_partial : forall (F : Type) (ff : bytes -> option F) json p e, Get json p = Err e ->
  GetString json p = Err e /\ GetInt json p = Err e /\ GetBool json p = Err e /\ GetFloat ff json p = Err e /\
  GetStringArray json p = Err e /\ GetIntArray json p = Err e /\ GetBoolArray json p = Err e /\ GetFloatArray ff json p = Err e /\
  IsEmpty json p = Err e /\
  (json <> b "[]" -> json <> b "{}" -> Length json p = Err e /\ GetMap json p = Err e).
Proof. exact reads_fail. Qed.
Print Assumptions C56_reads_partial.

Theorem C56_listings_partial : forall (pf : bytes -> bool) json p e, Get json p = Err e -> early e = true ->
  IsObject json p = Err e /\ IsArray json p = Err e /\ IsValue json p = Err e /\ GetType pf json p = Err e /\
  (json <> b "{}" -> GetKeys json p = Err e /\ GetValues json p = Err e /\ GetKeysValues json p = Err e /\
     forall St (cb : St -> bytes -> bytes -> St * (bool * option err)) s, IterateKeyValue json cb p s = IDone s (Some e)) /\
  (length json <> 2%nat -> forall St (cb : St -> bytes -> St * (bool * option err)) s, IterateArray json cb p s = IDone s (Some e)).
Proof. exact listings_fail. Qed.
Print Assumptions C56_listings_partial.

(** Updates hand the text back with the lookup's error; Store adds when the error is that a key was not found. *)
Theorem C56_updates : forall json p e, Get json p = Err e -> forall new key value index,
  Set_ json new p = Fail (Some json) e /\ Delete json p = Fail (Some json) e /\ Add_ json new p = Fail (Some json) e /\
  AddKeyValue json key value p = Fail (Some json) e /\ Insert json index new p = Fail (Some json) e.
Proof. exact updates_fail. Qed.
Print Assumptions C56_updates.

Theorem C56_store : forall json key value p e, Get json (p ++ [key]) = Err e ->
  Store json key value p = if not_found e then AddKeyValue json key value p else Fail (Some json) e.
Proof. exact store_fails. Qed.
Print Assumptions C56_store.

(** SetKey wants the new key to be missing and the old one to be there. *)
Theorem C56_set_key : forall json k q x, k <> [] ->
  (forall v, Get json (q ++ [k]) = Ok v -> SetKey json k (q ++ [x]) = Fail (Some json) (EBadJSON 0)) /\
  (forall e, Get json (q ++ [k]) = Err e -> not_found e = false -> SetKey json k (q ++ [x]) = Fail (Some json) e) /\
  (forall e e', Get json (q ++ [k]) = Err e -> not_found e = true -> Get json (q ++ [x]) = Err e' -> SetKey json k (q ++ [x]) = Fail (Some json) e').
Proof. exact set_key_fails. Qed.
Print Assumptions C56_set_key.

(** No path, no key, an index below zero, no room for brackets. *)
Theorem C56_no_path : forall json new k, k <> [] ->
  Set_ json new [] = Fail (Some json) ENullPath /\ Delete json [] = Fail (Some json) ENullPath /\ SetKey json k [] = Fail (Some json) ENullPath.
Proof. exact no_path. Qed.
Print Assumptions C56_no_path.

Theorem C56_no_key : forall (pf : bytes -> bool) json p s z n flag,
  SetKey json [] p = Fail (Some json) ENullKey /\ AddKeyValueString pf json [] s p = Fail None ENullKey /\
  AddKeyValueInt json [] z p = Fail (Some json) ENullKey /\ AddKeyValueUint json [] n p = Fail (Some json) ENullKey /\
  AddKeyValueInt32 json [] z p = Fail (Some json) ENullKey /\ AddKeyValueInt64 json [] z p = Fail (Some json) ENullKey /\
  AddKeyValueUint32 json [] n p = Fail (Some json) ENullKey /\ AddKeyValueUint64 json [] n p = Fail (Some json) ENullKey /\
  AddKeyValueFloat json [] s p = Fail (Some json) ENullKey /\ AddKeyValueBool json [] flag p = Fail (Some json) ENullKey.
Proof. exact no_key. Qed.
Print Assumptions C56_no_key.

Theorem C56_negative_index : forall (pf : bytes -> bool) json p i s z n flag, (i < 0)%Z ->
  InsertString pf json i s p = Fail None EIndexOutOfRange /\
  InsertInt json i z p = Fail (Some json) EIndexOutOfRange /\ InsertUint json i n p = Fail (Some json) EIndexOutOfRange /\
  InsertInt32 json i z p = Fail (Some json) EIndexOutOfRange /\ InsertInt64 json i z p = Fail (Some json) EIndexOutOfRange /\
  InsertUint32 json i n p = Fail (Some json) EIndexOutOfRange /\ InsertUint64 json i n p = Fail (Some json) EIndexOutOfRange /\
  InsertFloat json i s p = Fail (Some json) EIndexOutOfRange /\ InsertBool json i flag p = Fail (Some json) EIndexOutOfRange.
Proof. exact negative_index. Qed.
Print Assumptions C56_negative_index.

Theorem C56_short_text : forall json, (length json < 2)%nat -> forall p new key value,
  Add_ json new p = Fail (Some json) (EBadJSON 0) /\ AddKeyValue json key value p = Fail (Some json) (EBadJSON 0) /\
  (p <> [] -> Get json p = Err (EBadJSON 0)).
Proof. exact short_text. Qed.
Print Assumptions C56_short_text.

Theorem C56_statement_refuted : ~ C56_statement /\
  Get (b "{}") [b "a"] = Err (EKeyNotFound (b "a")) /\ Length (b "{}") [b "a"] = Ok 0%nat /\ GetMap (b "{}") [b "a"] = Ok None /\
  GetKeys (b "{}") [b "a"] = Err EEmpty /\
  Get (b "[]") [b "0"] = Err EEmptyArray /\ IsValue (b "[]") [b "0"] = Ok true /\
  Get (b "{""a"":[1") [b "a"] = Err (EBadJSON 5) /\ IsArray (b "{""a"":[1") [b "a"] = Ok true.
Proof.
  split; [|vm_compute; repeat split]. intro H. specialize (H (fun _ => false) (b "{}") [b "a"] _ eq_refl).
  destruct H as (_ & _ & _ & _ & H & _). discriminate H.
Qed.
Print Assumptions C56_statement_refuted.

(** Adding with an empty key is refused by the typed functions only. *)
Definition C56_empty_key_statement : Prop := forall json v p, exists e, AddKeyValue json [] v p = Fail (Some json) e.
Theorem C56_empty_key_refuted : ~ C56_empty_key_statement /\
  AddKeyValue (b "{}") [] (Some (b "1")) [] = Done (b "{"""":1}") /\ AddKeyValueInt (b "{}") [] 1 [] = Fail (Some (b "{}")) ENullKey.
Proof. split; [|split; reflexivity]. intro H. destruct (H (b "{}") (Some (b "1")) []) as [e He]. discriminate He. Qed.
Print Assumptions C56_empty_key_refuted.

(** A document, a text that is cut off, and one that is no text at all. *)
Definition ex56 : bytes := b "{""a"":[1,{""k"":""v""}],""o"":{""x"":null}}".
Definition ex56_cut : bytes := b "{""a"":[1,{""k"":""v".
Example C56_example :
  Get ex56 [b "a"; b "7"] = Err EIndexOutOfRange /\ GetInt ex56 [b "a"; b "7"] = Err EIndexOutOfRange /\
  GetKeys ex56 [b "a"; b "k"] = Err EIndexExpected /\ Length ex56 [b "o"; b "z"] = Err (EKeyNotFound (b "z")) /\
  IterateArray ex56 (fun (n : nat) _ => (S n, (true, None))) [b "z"] 0%nat = IDone 0%nat (Some (EKeyNotFound (b "z"))) /\
  Set_ ex56 (b "2") [b "a"; b "7"] = Fail (Some ex56) EIndexOutOfRange /\
  Store ex56 (b "7") (Some (b "2")) [b "a"] = Fail (Some ex56) EIndexOutOfRange /\
  Store ex56 (b "y") (Some (b "2")) [b "o"] = Done (b "{""a"":[1,{""k"":""v""}],""o"":{""x"":null,""y"":2}}") /\
  SetKey ex56 (b "o") [b "a"] = Fail (Some ex56) (EBadJSON 0) /\ SetKey ex56 (b "n") [b "z"] = Fail (Some ex56) (EKeyNotFound (b "z")) /\
  SetKey ex56 (b "n") [b "a"; b "0"] = Fail (Some ex56) EIndexExpected /\
  Get ex56_cut [b "a"; b "1"; b "k"] = Err (EBadJSON 13) /\ Delete ex56_cut [b "a"; b "1"; b "k"] = Fail (Some ex56_cut) (EBadJSON 13) /\
  Add_ (b "x") (b "1") [] = Fail (Some (b "x")) (EBadJSON 0) /\ InsertBool ex56 (-1) true [b "o"] = Fail (Some ex56) EIndexOutOfRange.
Proof. vm_compute. repeat split. Qed.
