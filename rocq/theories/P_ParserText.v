(** C57: the text a Parser holds is updated as the package's functions update it. *)
From Coq Require Import String.
From Verif Require Import GoStd Json Spec Core Errors Api Parse Ops Iter SpecParser Parser ParserOps ParserInsert ParserText ParserNil.

Local Open Scope N_scope.

(** Full statement: a method that reports no error leaves the text the function of its name makes of the one held.
    The parser is any pair of a tree and a text, also one whose tree no longer fits its text. *)
Definition C57_statement : Prop := forall p o p', p_call o p = PRet p' None -> call o (p_json p) = Done (p_json p').

(** Add and AddKeyValue at the root put a comma into an empty container. *)
Theorem C57_statement_refuted : ~ C57_statement.
Proof.
  intro H. pose (t := b "[ ]"). specialize (H (match Parse t with Ok p => p | _ => Par (Node [] [] []) [] end) (OAdd [] (JScalar (b "9")))).
  specialize (H _ eq_refl). vm_compute in H. discriminate H.
Qed.
Print Assumptions C57_statement_refuted.

(** Set does not look at the error of the function it calls: on a tree with a node the text has no value for it reports
    success and changes no text.  Here the tree is that of [1,2] after its first element was deleted. *)
Theorem C57_set_refuted : exists p p1 p2, Parse (b "[1,2]") = Ok p /\ P_Delete p [b "0"] = PRet p1 None /\ p_json p1 = b "[2]" /\
  P_Set p1 (b "9") [b "1"] = PRet p2 None /\ p_json p2 = b "[2]" /\ Set_ (b "[2]") (b "9") [b "1"] = Fail (Some (b "[2]")) EIndexOutOfRange.
Proof.
  eexists _, _, _. split; [vm_compute; reflexivity|]. split; [vm_compute; reflexivity|]. split; [vm_compute; reflexivity|].
  split; [vm_compute; reflexivity|]. split; vm_compute; reflexivity.
Qed.
Print Assumptions C57_set_refuted.

(** Below the root, for any parser and any bytes: the text stays and there is an error, or it is the function's. *)
Theorem C57_delete : forall p q p' e, P_Delete p q = PRet p' e ->
  ((p_json p' = p_json p /\ e <> None) \/ Some (p_json p') = kept (p_json p) (Delete (p_json p) q)) /\
  (e = None -> Delete (p_json p) q = Done (p_json p')).
Proof. exact delete_text. Qed.
Print Assumptions C57_delete.

Theorem C57_add : forall p v q p' e, q <> [] -> P_Add p v q = PRet p' e ->
  ((p_json p' = p_json p /\ e <> None) \/ Some (p_json p') = kept (p_json p) (Add_ (p_json p) v q)) /\
  (e = None -> Add_ (p_json p) v q = Done (p_json p')).
Proof. exact add_text. Qed.
Print Assumptions C57_add.

Theorem C57_add_key_value : forall p k v q p' e, q <> [] -> P_AddKeyValue p k v q = PRet p' e ->
  ((p_json p' = p_json p /\ e <> None) \/ Some (p_json p') = kept (p_json p) (AddKeyValue (p_json p) k (Some v) q)) /\
  (e = None -> AddKeyValue (p_json p) k (Some v) q = Done (p_json p')).
Proof. exact addkv_text. Qed.
Print Assumptions C57_add_key_value.

(** A nil value: below the root the function's text, which has null; at the root, and under a key of two bytes or more, what
    the empty value does. *)
Theorem C57_add_key_value_nil : forall p k q p' e, q <> [] -> P_AddKeyValue_nil p k q = PRet p' e ->
  ((p_json p' = p_json p /\ e <> None) \/ Some (p_json p') = kept (p_json p) (AddKeyValue (p_json p) k None q)) /\
  (e = None -> AddKeyValue (p_json p) k None q = Done (p_json p')).
Proof. exact nil_text. Qed.
Print Assumptions C57_add_key_value_nil.
Theorem C57_add_key_value_nil_empty : forall p k q, q = [] \/ (2 <= length k)%nat -> P_AddKeyValue_nil p k q = P_AddKeyValue p k [] q.
Proof. exact nil_empty. Qed.
Print Assumptions C57_add_key_value_nil_empty.

Example C57_nil_example : let t := b "{""a"":{""c"":1}}" in
  (exists p p', Parse t = Ok p /\ P_AddKeyValue_nil p (b "k") [b "a"] = PRet p' None /\ p_json p' = b "{""a"":{""c"":1,""k"":null}}") /\
  (exists p p', Parse t = Ok p /\ P_AddKeyValue_nil p (b "k") [] = PRet p' None /\ p_json p' = b "{""a"":{""c"":1},""k"":}" /\
     AddKeyValue t (b "k") None [] = Done (b "{""a"":{""c"":1},""k"":null}") /\ parse_doc (p_json p') = None) /\
  (exists p, Parse t = Ok p /\ P_AddKeyValue_nil p (b "a") [b "a"] = PRet p (Some (EKeyAlreadyExist (b "a")))).
Proof.
  cbv zeta. split; [|split]; [eexists _, _|eexists _, _|eexists].
  - do 2 (split; [vm_compute; reflexivity|]). vm_compute. reflexivity.
  - do 4 (split; [vm_compute; reflexivity|]). vm_compute. reflexivity.
  - split; [vm_compute; reflexivity|]. vm_compute. reflexivity.
Qed.

(** Insert also at the root *)
Theorem C57_insert : forall p z v q p' e, P_Insert p z v q = PRet p' e ->
  ((p_json p' = p_json p /\ e <> None) \/ Some (p_json p') = kept (p_json p) (Insert (p_json p) z v q)) /\
  (e = None -> Insert (p_json p) z v q = Done (p_json p')).
Proof. exact insert_text. Qed.
Print Assumptions C57_insert.

(** Set and SetKey: the same but for the errors of the function. *)
Theorem C57_set_partial : forall p v q p' e, P_Set p v q = PRet p' e ->
  (p_json p' = p_json p /\ e <> None) \/ Some (p_json p') = kept (p_json p) (Set_ (p_json p) v q).
Proof. exact set_text. Qed.
Print Assumptions C57_set_partial.

Theorem C57_set_key_partial : forall p k q p' e, P_SetKey p k q = PRet p' e ->
  (p_json p' = p_json p /\ e <> None) \/ Some (p_json p') = kept (p_json p) (SetKey (p_json p) k q).
Proof. exact setkey_text. Qed.
Print Assumptions C57_set_key_partial.

(** At the root: the texts, byte for byte, *)
Theorem C57_add_root : forall p v p' e, P_Add p v [] = PRet p' e ->
  (p' = p /\ e <> None) \/
  e = None /\ exists m, p_json p = 91 :: m ++ [93] /\
    p_json p' = 91 :: m ++ (if two_open v && (length m =? 0)%nat then [] else [44]) ++ v ++ [93].
Proof. exact add_root_text. Qed.
Print Assumptions C57_add_root.

Theorem C57_add_key_value_root : forall p k v p' e, P_AddKeyValue p k v [] = PRet p' e ->
  (p' = p /\ e <> None) \/
  e = None /\ exists m, p_json p = 123 :: m ++ [125] /\
    p_json p' = 123 :: m ++ (if kv_open k v && (length m =? 0)%nat then [] else [44]) ++ (34 :: k ++ [34; 58] ++ v) ++ [125].
Proof. exact addkv_root_text. Qed.
Print Assumptions C57_add_key_value_root.

(** and exactly when that is the function's text. *)
Theorem C57_add_root_exact : forall p v p', P_Add p v [] = PRet p' None ->
  exists m, p_json p = 91 :: m ++ [93] /\
    (Add_ (p_json p) v [] = Done (p_json p') <-> forallb is_ws m = false \/ (m = [] /\ two_open v = true)).
Proof. exact add_root_exact. Qed.
Print Assumptions C57_add_root_exact.

Theorem C57_add_key_value_root_exact : forall p k v p', P_AddKeyValue p k v [] = PRet p' None ->
  exists m, p_json p = 123 :: m ++ [125] /\
    (AddKeyValue (p_json p) k (Some v) [] = Done (p_json p') <->
     (forallb is_ws m = false /\ Get (p_json p) [k] = Err (EKeyNotFound k)) \/ (m = [] /\ kv_open k v = true)).
Proof. exact addkv_root_exact. Qed.
Print Assumptions C57_add_key_value_root_exact.

(** Any calls, whatever they report: the text is what the functions make of it by some of the calls. *)
Theorem C57_run_partial : forall ops p p', forallb (fun o => negb (at_root o)) ops = true -> p_run_on ops p = Some p' ->
  exists ops', some_of ops' ops /\ run ops' (p_json p) = Some (p_json p').
Proof. exact run_text. Qed.
Print Assumptions C57_run_partial.

(** On documents: successful calls that apply to the text make the text of a document with the content meant.  Unlike
    in C30 containers may be put in and overwritten, elements deleted anywhere, keys repeated, elements inserted at will,
    and the tree need not fit the text. *)
Theorem C57_documents_partial : forall d ops c', t_lawful d ops c' -> wf_doc d = true ->
  forall p p', p_json p = text d -> p_run ops p = Some p' ->
  exists d', p_json p' = text d' /\ wf_doc d' = true /\ content (d_val d') = c' /\ run ops (text d) = Some (text d').
Proof. exact text_history. Qed.
Print Assumptions C57_documents_partial.

Definition ex57 : doc := doc_of (b "{""a"":[1, {} ,3],""b"":2,""b"":4}").
Definition ex57_ops : list op :=
  [OAdd [b "a"] (d_val (doc_of (b "{""k"": [1]}"))); OSet [b "a"; b "1"] (d_val (doc_of (b "[true]"))); ODelete [b "a"] (b "0");
   OSet [b "b"] (JScalar (b "3"))].
Definition ex57_out : bytes := b "{""a"":[ [true] ,3,{""k"": [1]}],""b"":3,""b"":4}".
Example C57_example :
  wf_doc ex57 = true /\
  t_lawful ex57 ex57_ops (content (d_val (doc_of ex57_out))) /\
  (exists p p', Parse (text ex57) = Ok p /\ p_run ex57_ops p = Some p' /\ p_json p' = ex57_out /\
    (* the tree no longer fits: the deleted element's successors kept their labels *)
    P_Get p' [b "a"; b "0"] = Err (EKeyNotFound (b "0")) /\ Get ex57_out [b "a"; b "0"] = Ok (b "[true]")) /\
  (exists p p', Parse (b "[1,2]") = Ok p /\
    p_run_on [ODelete [] (b "7"); OInsert [] 0 (JScalar (b "0")); OSet [b "1"] (JScalar (b "5"))] p = Some p' /\ p_json p' = b "[0,5,2]") /\
  (exists p p', Parse (b "{ ""a"":1}") = Ok p /\ P_AddKeyValue p (b "k") (b "2") [] = PRet p' None /\ p_json p' = b "{ ""a"":1,""k"":2}" /\ Get (p_json p) [b "k"] = Err (EKeyNotFound (b "k"))) /\
  (exists p p', Parse (b "{ }") = Ok p /\ P_AddKeyValue p (b "k") (b "2") [] = PRet p' None /\ p_json p' = b "{ ,""k"":2}" /\ AddKeyValue (p_json p) (b "k") (Some (b "2")) [] = Done (b "{ ""k"":2}")).
Proof.
  split; [vm_compute; reflexivity|]. split; [|split; [|split; [|split]]].
  - unfold ex57_ops. eapply TL_do; [reflexivity|exact I|reflexivity|]. intros d1 _ _ H1.
    eapply TL_do; [split; [discriminate|reflexivity]|exact I|rewrite H1; reflexivity|]. intros d2 _ _ H2.
    eapply TL_do; [exact I|exact I|rewrite H2; reflexivity|]. intros d3 _ _ H3.
    eapply TL_do; [split; [discriminate|reflexivity]|exact I|rewrite H3; reflexivity|]. intros d4 _ _ H4.
    replace (content (d_val (doc_of ex57_out))) with (content (d_val d4)) by (rewrite H4; reflexivity). apply TL_nil.
  - eexists _, _. do 4 (split; [vm_compute; reflexivity|]). vm_compute. reflexivity.
  - eexists _, _. do 2 (split; [vm_compute; reflexivity|]). vm_compute. reflexivity.
  - eexists _, _. do 3 (split; [vm_compute; reflexivity|]). vm_compute. reflexivity.
  - eexists _, _. do 3 (split; [vm_compute; reflexivity|]). vm_compute. reflexivity.
Qed.
