(** Property C45: what a successful call does to arbitrary bytes.  Statements only; the proofs are in [Splice]. *)
From Coq Require Import String.
From Verif Require Import GoStd Json SpecSplice Core Errors Api Splice.

Local Open Scope N_scope.

(** ** C45  On arbitrary bytes.

    The text need not be JSON: it may be truncated, have unbalanced brackets, or be no text at all.  A read that
    succeeds returns a stretch of the input that is a value on its own terms; an update that succeeds changes one
    stretch and leaves the bytes before and after it as they were.

    Full statement: the theorems below with no condition on the text.  False for Delete on a text that begins with a
    comma, and for SetKey when the text begins with the key ([C45_delete_refuted], [C45_set_key_refuted]); the partial
    theorems exclude those texts, and for SetKey keys in which a quote is not escaped. *)
Definition C45_statement : Prop :=
  (forall json path out, Delete json path = Done out -> exists cut, spliced json cut [] out) /\
  (forall json newKey path out, SetKey json newKey path = Done out ->
     spliced json (34 :: last path [] ++ [34]) (34 :: newKey ++ [34]) out).

Theorem C45_get : forall json path r,
  path <> [] -> Get json path = Ok r -> exists A C, json = A ++ r ++ C /\ value_in A r C.
Proof. exact get_splice. Qed.
Print Assumptions C45_get.

Theorem C45_set : forall json new path out, Set_ json new path = Done out -> set_shape Get json path new out.
Proof. exact set_splice. Qed.
Print Assumptions C45_set.

Theorem C45_add : forall json value path out, Add_ json value path = Done out -> grown Get json path 91 93 value out.
Proof. exact add_splice. Qed.
Print Assumptions C45_add.

Theorem C45_add_key_value : forall json key value path out, AddKeyValue json key value path = Done out ->
  grown Get json path 123 125 (pair_of key (value_of value)) out.
Proof. exact addkv_splice. Qed.
Print Assumptions C45_add_key_value.

Theorem C45_store : forall json key value path out, Store json key value path = Done out ->
  set_shape Get json (path ++ [key]) (match value with None => [] | Some v => v end) out \/
  ((exists er, Get json (path ++ [key]) = Err er) /\ grown Get json path 123 125 (pair_of key (value_of value)) out).
Proof. exact store_splice. Qed.
Print Assumptions C45_store.

(** Insert: the value and a comma go in before the element found, or a comma and the value before the byte in front of it. *)
Theorem C45_insert : forall json index value path out, Insert json index value path = Done out ->
  exists A0 m0 C0, target Get json path 91 93 A0 m0 C0 /\
  exists A q r C, json = A ++ q ++ r ++ C /\ (q = [] \/ q = [34]) /\ Get json (path ++ [itoa index]) = Ok r /\
    (out = A ++ value ++ 44 :: q ++ r ++ C \/
     exists A' c, A = A' ++ [c] /\ (is_ws c = true \/ c = 44) /\ out = A' ++ 44 :: value ++ c :: q ++ r ++ C).
Proof. exact insert_splice. Qed.
Print Assumptions C45_insert.

Theorem C45_delete_partial : forall json path out, hd 0 json <> 44 -> Delete json path = Done out ->
  exists A l r m C, json = A ++ (l ++ r ++ m) ++ C /\ out = A ++ C /\ Get json path = Ok r /\ forallb sep m = true /\
    (forallb sep l = true \/ exists l1 l2, l = l1 ++ 34 :: last path [] ++ 34 :: l2 /\ forallb sep l1 = true).
Proof. exact delete_splice. Qed.
Print Assumptions C45_delete_partial.

Theorem C45_set_key_partial : forall json newKey path out, SetKey json newKey path = Done out ->
  (exists old, spliced json old newKey out) /\
  (str_ok (last path []) = true -> ~ begins_with (last path []) json ->
   exists A C, json = A ++ 34 :: last path [] ++ 34 :: C /\ out = A ++ 34 :: newKey ++ 34 :: C) /\
  exists r, Get json path = Ok r.
Proof. exact setkey_splice. Qed.
Print Assumptions C45_set_key_partial.

(** The text grows. *)
Theorem C45_delete_refuted :
  ~ (forall json path out, Delete json path = Done out -> exists cut, spliced json cut [] out).
Proof.
  intro H. assert (E : Delete (b ",{""a"":""b""") [b "a"] = Done (b ",{{""a"":""b""")) by (vm_compute; reflexivity).
  destruct (H _ _ _ E) as (cut & A & C & E1 & E2). apply (f_equal (@length N)) in E1, E2. rewrite !app_length in E1, E2. cbn in E1, E2. lia.
Qed.
Print Assumptions C45_delete_refuted.

(** With an empty key nothing needs to be quoted: the bytes in front of the value are replaced instead. *)
Theorem C45_set_key_refuted :
  ~ (forall json newKey path out, SetKey json newKey path = Done out ->
       spliced json (34 :: last path [] ++ [34]) (34 :: newKey ++ [34]) out).
Proof.
  intro H. assert (E : SetKey (b "{:"""" ") (b "k") [[]] = Done (b "k"""" ")) by (vm_compute; reflexivity).
  destruct (H _ _ _ _ E) as (A & C & E1 & E2). destruct A as [|c A]; cbn in E1, E2; [discriminate|]. injection E1 as <- _. discriminate.
Qed.
Print Assumptions C45_set_key_refuted.

(** A text with a missing value, a stray bracket and no end. *)
Definition ex45 : bytes := b " {""a"" : ,, ""b"" 7: [ 1 ,""x]\"""" , {""c"":{}} ] ,, ""k"":tru".

Example C45_example :
  hd 0 ex45 <> 44 /\ str_ok (b "c") = true /\ ~ begins_with (b "c") ex45 /\
  Get ex45 [b "b"] = Ok (b "[ 1 ,""x]\"""" , {""c"":{}} ]") /\
  Get ex45 [b "b"; b "1"] = Ok (b "x]\""") /\
  Set_ ex45 (b "0") [b "b"; b "1"] = Done (b " {""a"" : ,, ""b"" 7: [ 1 ,0 , {""c"":{}} ] ,, ""k"":tru") /\
  Delete ex45 [b "b"; b "1"] = Done (b " {""a"" : ,, ""b"" 7: [ 1 , {""c"":{}} ] ,, ""k"":tru") /\
  Delete ex45 [b "b"] = Done (b " {""a"" : ,, , ""k"":tru") /\
  Insert ex45 1 (b "0") [b "b"] = Done (b " {""a"" : ,, ""b"" 7: [ 1 ,0,""x]\"""" , {""c"":{}} ] ,, ""k"":tru") /\
  Insert ex45 2 (b "0") [b "b"] = Done (b " {""a"" : ,, ""b"" 7: [ 1 ,""x]\"""" ,,0 {""c"":{}} ] ,, ""k"":tru") /\
  Add_ ex45 (b "0") [b "b"] = Done (b " {""a"" : ,, ""b"" 7: [ 1 ,""x]\"""" , {""c"":{}} ,0] ,, ""k"":tru") /\
  AddKeyValue ex45 (b "new") None [b "b"; b "2"] = Done (b " {""a"" : ,, ""b"" 7: [ 1 ,""x]\"""" , {""c"":{},""new"":null} ] ,, ""k"":tru") /\
  Store ex45 (b "c") None [b "b"; b "2"] = Done (b " {""a"" : ,, ""b"" 7: [ 1 ,""x]\"""" , {""c"":} ] ,, ""k"":tru") /\
  Store ex45 (b "d") (Some (b "1")) [b "b"; b "2"] = Done (b " {""a"" : ,, ""b"" 7: [ 1 ,""x]\"""" , {""c"":{},""d"":1} ] ,, ""k"":tru") /\
  SetKey ex45 (b "new") [b "b"; b "2"; b "c"] = Done (b " {""a"" : ,, ""b"" 7: [ 1 ,""x]\"""" , {""new"":{}} ] ,, ""k"":tru").
Proof.
  split; [discriminate|]. split; [reflexivity|]. split; [intros (r & E); discriminate E|].
  repeat split; vm_compute; reflexivity.
Qed.
