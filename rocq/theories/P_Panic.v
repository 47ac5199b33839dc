(** Property C34 (panics). *)
From Coq Require Import String.
From Verif Require Import GoStd Json Parse Spec Core Errors Api Typed Iter Make SpecPanic NoPanicD NoPanicE BlankText Parser ParserNil.

Local Open Scope N_scope.

Definition document (t : bytes) : bool := match parse_doc t with Some _ => true | None => false end.

(** ** C34

    Termination is part of the model: every function of the interpreter is a structural recursion over the text or
    the path (the one loop that is not, Walk, is [C35_terminates]).

    The other half of the statement, for the lookups and updates; false, see [C34_delete_refuted]. *)
Definition C34_statement : Prop := forall d, wf_doc d = true -> forall key new value index path,
  Get (text d) path <> Panic /\ Set_ (text d) new path <> UPanic /\ SetKey (text d) key path <> UPanic /\
  Delete (text d) path <> UPanic /\ AddKeyValue (text d) key value path <> UPanic /\ Add_ (text d) new path <> UPanic /\
  Insert (text d) index new path <> UPanic /\ Store (text d) key value path <> UPanic.

(** Documents are complete texts, so the next three theorems speak about all documents and all paths. *)
Theorem C34_documents_complete : forall d, wf_doc d = true -> complete (text d).
Proof. exact doc_complete. Qed.
Print Assumptions C34_documents_complete.

Theorem C34_reads : forall json, complete json -> forall (F : Type) (ff : bytes -> option F) (pf : bytes -> bool) path keys,
  Get json path <> Panic /\ GetString json path <> Panic /\ GetInt json path <> Panic /\ GetBool json path <> Panic /\
  GetFloat ff json path <> Panic /\ GetAll json keys path <> Panic /\ GetAllMap json keys path <> Panic /\
  GetType pf json path <> Panic /\ IsObject json path <> Panic /\ IsArray json path <> Panic /\ IsValue json path <> Panic /\
  IsEmpty json path <> Panic /\ Length json path <> Panic.
Proof. exact reads_complete. Qed.
Print Assumptions C34_reads.

Theorem C34_writes : forall json, complete json -> forall key new value path,
  Set_ json new path <> UPanic /\ SetKey json key path <> UPanic /\ AddKeyValue json key value path <> UPanic /\
  Add_ json new path <> UPanic /\ Store json key value path <> UPanic.
Proof. exact writes_complete. Qed.
Print Assumptions C34_writes.

Theorem C34_iterate_array : forall (St : Type) json (cb : St -> bytes -> St * (bool * option err)) path s,
  path = [] \/ complete json -> IterateArray json cb path s <> IPanic.
Proof. exact (@iter_complete). Qed.
Print Assumptions C34_iterate_array.

(** Insert, and the typed variants.  (The 64-bit integer variants always panic: C26_64bit_writers_panic.) *)
Theorem C34_documents : forall d, wf_doc d = true -> forall (pf : bytes -> bool) key v index z flag path,
  let t := text d in
  Insert t index v path <> UPanic /\ InsertString pf t index v path <> UPanic /\ InsertInt t index z path <> UPanic /\
  InsertFloat t index v path <> UPanic /\ InsertBool t index flag path <> UPanic /\
  SetString pf t v path <> UPanic /\ SetInt t z path <> UPanic /\ SetFloat t v path <> UPanic /\ SetBool t flag path <> UPanic /\
  StoreString pf t key v path <> UPanic /\ StoreInt t key z path <> UPanic /\ StoreFloat t key v path <> UPanic /\
  StoreBool t key flag path <> UPanic /\ AddKeyValueString pf t key v path <> UPanic /\ AddKeyValueInt t key z path <> UPanic /\
  AddKeyValueFloat t key v path <> UPanic /\ AddKeyValueBool t key flag path <> UPanic /\ AddString pf t v path <> UPanic /\
  AddInt t z path <> UPanic /\ AddFloat t v path <> UPanic /\ AddBool t flag path <> UPanic.
Proof. exact documents_total. Qed.
Print Assumptions C34_documents.

(** Delete: unless some path element (the empty key, for one) is the beginning of the text. *)
Theorem C34_delete_partial : forall d path, wf_doc d = true -> (forall x, In x path -> ~ begins x (text d)) ->
  Delete (text d) path <> UPanic.
Proof. exact delete_total. Qed.
Print Assumptions C34_delete_partial.

(** Missing from [C34_delete_partial]: an empty key looked for in an empty object, with a brace and a colon inside a
    later string.  A non-empty key is no protection by itself: it can equal the text from its first byte on. *)
Definition ex_d1 : bytes := b "[{},""{:1 ""]".
Definition ex_d2 : bytes := b "[{},[{""}:1"":2 }]]".
Theorem C34_delete_refuted : ~ C34_statement /\
  Delete ex_d1 [b "0"; []] = UPanic /\ Delete ex_d2 [b "0"; b "[{},[{""}:1"] = UPanic.
Proof.
  split; [|split; vm_compute; reflexivity]. intro H.
  assert (E : exists d, parse_doc ex_d1 = Some d /\ wf_doc d = true /\ text d = ex_d1)
    by (eexists; split; [vm_compute; reflexivity|split; vm_compute; reflexivity]).
  destruct E as (d & _ & Hw & Ht). specialize (H d Hw [] [] None 0%Z [b "0"; []]). rewrite Ht in H.
  destruct H as (_ & _ & _ & H & _). apply H. vm_compute. reflexivity.
Qed.
Print Assumptions C34_delete_refuted.

(** The listing functions panic on documents when the path leads into a string, the array getters also when it resolves:
    on an empty array, or on a string that looks like an array. *)
Definition ex_s : bytes := b """{:{:}}""".
Theorem C34_listings_refuted : document ex_s = true /\
  GetKeys ex_s [[]] = Panic /\ GetKeysValues ex_s [[]] = Panic /\ GetMap ex_s [[]] = Panic /\
  GetValues (b """{:{,,""") [[]] = Panic /\
  IterateKeyValue ex_s (fun (s : unit) _ _ => (s, (true, None))) [[]] tt = IPanic /\
  GetIntArray (b "[]") [] = Panic /\ GetBoolArray (b "[]") [] = Panic /\ GetStringArray (b "[""[0,]"",1]") [b "0"] = Panic.
Proof. repeat split; vm_compute; reflexivity. Qed.
Print Assumptions C34_listings_refuted.

(** Where the path leads to a value, of any kind, they do not. *)
Theorem C34_listings_partial : forall (St : Type) (cb : St -> bytes -> bytes -> St * (bool * option err)) s d p v,
  wf_doc d = true -> lookup (d_val d) p = Some v ->
  GetKeys (text d) p <> Panic /\ GetValues (text d) p <> Panic /\ GetKeysValues (text d) p <> Panic /\ GetMap (text d) p <> Panic /\
  IterateKeyValue (text d) cb p s <> IPanic.
Proof. exact (@listings_resolve). Qed.
Print Assumptions C34_listings_partial.
Example C34_listings_example :
  let d := doc_of (b "{""a"":{""k"":""{:{:}}""},""c"":[]}") in
  wf_doc d = true /\ lookup (d_val d) [b "a"; b "k"] = Some (JString (b "{:{:}}")) /\
  GetKeys (text d) [b "a"] = Ok [b "k"] /\ GetValues (text d) [b "a"] = Ok [b "{:{:}}"] /\ GetMap (text d) [b "a"] = Err (EBadJSON 5) /\
  GetKeys (text d) [b "a"; b "k"] = Err EObjectExpected /\ GetMap (text d) [b "c"] = Err (EBadJSON 24).
Proof. vm_compute. repeat split. Qed.

(** Texts that are not complete: blanks only, and an array that is cut off. *)
Theorem C34_incomplete_refuted : Get (b "  ") [b "a"] = Panic /\ Get (b "[ ") [b "0"] = Panic /\ Get (b "{""a"": ") [b "a"] = Panic /\
  GetKeys [] [] = Panic /\ Delete (b "{""a"":[1]") [b "a"] = UPanic.
Proof. repeat split; vm_compute; reflexivity. Qed.
Print Assumptions C34_incomplete_refuted.

(** Parser.AddKeyValue panics for a nil value under a key of two bytes or more wherever another value could be added;
    elsewhere it is refused. *)
Theorem C34_nil_value : forall p k q, (2 <= length k)%nat ->
  (forall v p', P_AddKeyValue p k v q = PRet p' None -> P_AddKeyValue_nil p k q = PPanic) /\
  (P_AddKeyValue_nil p k q = PPanic \/ exists e, P_AddKeyValue_nil p k q = PRet p (Some e)).
Proof. exact (fun p k q H => conj (fun v p' => nil_panics p k v q p' H) (nil_long p k q H)). Qed.
Print Assumptions C34_nil_value.
Example C34_nil_example : exists p p', Parse (b "{""a"":{}}") = Ok p /\
  P_AddKeyValue p (b "kk") (b "1") [b "a"] = PRet p' None /\ P_AddKeyValue_nil p (b "kk") [b "a"] = PPanic /\
  P_AddKeyValue_nil p (b "kk") [b "z"] = PRet p (Some (EKeyNotFound (b "z"))).
Proof. eexists _, _. do 3 (split; [vm_compute; reflexivity|]). vm_compute. reflexivity. Qed.

(** Every text of two or more blanks makes all these functions panic. *)
Theorem C34_blank_reads : forall t, forallb space t = true -> (2 <= length t)%nat -> forall (F : Type) (ff : bytes -> option F) (pf : bytes -> bool) q,
  GetKeys t q = Panic /\ GetValues t q = Panic /\ GetKeysValues t q = Panic /\ GetMap t q = Panic /\ GetType pf t q = Panic /\
  IsObject t q = Panic /\ IsArray t q = Panic /\ IsValue t q = Panic /\ IsEmpty t q = Panic /\ Length t q = Panic /\
  (q <> [] -> Get t q = Panic /\ GetString t q = Panic /\ GetInt t q = Panic /\ GetBool t q = Panic /\ GetFloat ff t q = Panic /\
     GetStringArray t q = Panic /\ GetIntArray t q = Panic /\ GetBoolArray t q = Panic /\ GetFloatArray ff t q = Panic).
Proof. exact blank_reads. Qed.
Print Assumptions C34_blank_reads.

Theorem C34_blank_writes : forall t, forallb space t = true -> (2 <= length t)%nat -> forall new key value index q,
  Store t key value q = UPanic /\
  (q <> [] -> Set_ t new q = UPanic /\ Delete t q = UPanic /\ Add_ t new q = UPanic /\ AddKeyValue t key value q = UPanic /\ Insert t index new q = UPanic /\
     (key <> [] -> SetKey t key q = UPanic)).
Proof. exact blank_writes. Qed.
Print Assumptions C34_blank_writes.

Theorem C34_blank_schemes : forall t, forallb space t = true -> (2 <= length t)%nat -> forall (pf : bytes -> bool) k ks,
  MutateJson pf (k :: ks) t = Panic /\ MutateJsonAbs pf (k :: ks) t = Panic /\ Check (k :: ks) t = Panic /\ CheckAbs ks t = Panic.
Proof. exact blank_schemes. Qed.
Print Assumptions C34_blank_schemes.

Example C34_blank_example : let t := [32; 9; 10; 13] in
  forallb space t = true /\ (2 <= length t)%nat /\ GetKeys t [] = Panic /\ Set_ t (b "1") [b "a"] = UPanic /\
  MutateJsonAbs (fun _ => false) [b "a"] t = Panic /\ Add_ t (b "1") [] = Fail (Some t) EArrayExpected.
Proof. vm_compute. repeat split; lia. Qed.

(** A complete text that is no document, and a path leading into a string: the calls fail or answer, without a panic. *)
Definition ex_t : bytes := b "{""a"":[{},""{:1 "",[2,3}".
Example C34_example : complete ex_t /\ document ex_t = false /\
  Get ex_t [b "a"; b "0"; []] = Ok (b "1") /\ Set_ ex_t (b "7") [b "a"; b "0"; []] = Done (b "{""a"":[{},""{:7 "",[2,3}") /\
  Get ex_t [b "a"; b "5"] = Err EIndexOutOfRange /\ SetKey ex_t (b "z") [b "a"; b "1"] = Fail (Some ex_t) EIndexExpected /\
  document ex_d1 = true /\ Delete ex_d1 [b "0"; b "x"] = Fail (Some ex_d1) (EKeyNotFound (b "x")) /\
  (forall x, In x [b "0"; b "x"] -> ~ begins x ex_d1).
Proof.
  split.
  - exists (b "{""a"":[{},""{:1 "",[2,3"), 125, []. split; [reflexivity|]. split; [reflexivity|]. split; [reflexivity|].
    cbn. intuition discriminate.
  - repeat (split; [vm_compute; reflexivity|]). intros x [<-|[<-|[]]] [r H]; discriminate H.
Qed.
