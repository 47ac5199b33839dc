(** C55: a call on a Parser that cannot apply is refused with the right error, and the parser is as before. *)
From Coq Require Import String.
From Verif Require Import GoStd Json Spec Parse Focus Errors Api Ops History SpecParser Parser ParserOps ParserInsert SpecRefuse ParserRefuse.

Local Open Scope N_scope.

(** Full statement: right after Parse, an update that has no meaning on the document is refused, and the parser left as it was.
    False: AddKeyValue of a key the object has, below the root, returns the error but leaves a second node for the key in
    the tree ([C55_add_key_refuted]); SetKey on an element of an array returns no error and relabels the node
    ([C55_set_key_refuted]); Insert at a negative index panics ([C55_negative_index_refuted]); Add on a string that reads
    like an array writes into the string ([C55_string_refuted]). *)
Definition C55_statement : Prop := forall d p o, wf_doc d = true -> Parse (text d) = Ok p -> op_ok o -> meaning o (content (d_val d)) = None ->
  exists e, p_call o p = PRet p (Some e).

(** After Parse and any calls [ops] that keep the parser right (C30), the parser refuses: every update at a path that leads
    nowhere; SetKey to a key the object has, and AddKeyValue of one at the root; AddKeyValue on what is not an object, Add
    and Insert on what is not an array; Insert at an index the array does not have. *)
Theorem C55_refuses_partial : forall d ops c', wf_doc d = true -> container (d_val d) = true -> p_lawful true d ops c' ->
  exists p d' p', Parse (text d) = Ok p /\ p_run ops p = Some p' /\ run ops (text d) = Some (text d') /\
    wf_doc d' = true /\ content (d_val d') = c' /\ p_json p' = text d' /\ refuses p' d'.
Proof. exact history_refuses. Qed.
Print Assumptions C55_refuses_partial.

(** On every parser: no path, no key, no value. *)
Theorem C55_null_path : forall p,
  (forall new, refused p (P_Set p new []) ENullPath) /\ (forall k, refused p (P_SetKey p k []) ENullPath) /\ refused p (P_Delete p []) ENullPath.
Proof. exact null_path. Qed.
Print Assumptions C55_null_path.
Theorem C55_null_key : forall p q,
  (q <> [] -> refused p (P_SetKey p [] q) ENullKey) /\ (forall new, refused p (P_AddKeyValue p [] new q) ENullKey) /\
  refused p (P_Add p [] q) ENullKey /\ (forall z, refused p (P_Insert p z [] q) ENullKey).
Proof. exact null_key. Qed.
Print Assumptions C55_null_key.

(** On every parser: a SetKey that returns an error has changed nothing. *)
Theorem C55_set_key_atomic : forall p k q p' e, P_SetKey p k q = PRet p' (Some e) -> p' = p.
Proof. exact set_key_atomic. Qed.
Print Assumptions C55_set_key_atomic.

Definition ex55_obj := doc_of (b "{""a"":{""b"":1}}").
Definition ex55_arr := doc_of (b "{""a"":[1,2]}").
Theorem C55_add_key_refuted : ~ C55_statement.
Proof.
  intro H. destruct (Parse (text ex55_obj)) as [p|e|] eqn:Hp; [|vm_compute in Hp; discriminate|vm_compute in Hp; discriminate].
  destruct (H ex55_obj p (OAddKV [b "a"] (b "b") (JScalar (b "2"))) eq_refl Hp (conj eq_refl eq_refl) eq_refl) as (e & He).
  vm_compute in Hp. injection Hp as <-. vm_compute in He. discriminate He.
Qed.
Print Assumptions C55_add_key_refuted.
Theorem C55_set_key_refuted : ~ C55_statement.
Proof.
  intro H. destruct (Parse (text ex55_arr)) as [p|e|] eqn:Hp; [|vm_compute in Hp; discriminate|vm_compute in Hp; discriminate].
  destruct (H ex55_arr p (OSetKey [b "a"] (b "0") (b "k")) eq_refl Hp ltac:(split; [discriminate|reflexivity]) eq_refl) as (e & He).
  vm_compute in Hp. injection Hp as <-. vm_compute in He. discriminate He.
Qed.
Print Assumptions C55_set_key_refuted.
Theorem C55_negative_index_refuted : ~ C55_statement.
Proof.
  intro H. destruct (Parse (text ex55_arr)) as [p|e|] eqn:Hp; [|vm_compute in Hp; discriminate|vm_compute in Hp; discriminate].
  destruct (H ex55_arr p (OInsert [b "a"] (-1) (JScalar (b "2"))) eq_refl Hp (conj eq_refl eq_refl) eq_refl) as (e & He).
  vm_compute in Hp. injection Hp as <-. vm_compute in He. discriminate He.
Qed.
Print Assumptions C55_negative_index_refuted.
Theorem C55_string_refuted : ~ C55_statement.
Proof.
  intro H. pose (d := doc_of (b "{""a"":""[]""}")). destruct (Parse (text d)) as [p|e|] eqn:Hp; [|vm_compute in Hp; discriminate|vm_compute in Hp; discriminate].
  destruct (H d p (OAdd [b "a"] (JScalar (b "2"))) eq_refl Hp eq_refl eq_refl) as (e & He).
  vm_compute in Hp. injection Hp as <-. vm_compute in He. discriminate He.
Qed.
Print Assumptions C55_string_refuted.

(** The other way round, a call that applies is refused: AddKeyValue below the root looks for the key beside the object. *)
Definition C55_accepts_statement : Prop := forall d p q k v, wf_doc d = true -> Parse (text d) = Ok p -> straight (d_val d) q = true ->
  meaning (OAddKV q k v) (content (d_val d)) <> None -> wf v = true -> str_ok k = true -> k <> [] -> exists p', P_AddKeyValue p k (render v) q = PRet p' None.
Theorem C55_accepts_refuted : ~ C55_accepts_statement.
Proof.
  intro H. destruct (Parse (text ex55_obj)) as [p|e|] eqn:Hp; [|vm_compute in Hp; discriminate|vm_compute in Hp; discriminate].
  destruct (H ex55_obj p [b "a"] (b "a") (JScalar (b "2")) eq_refl Hp eq_refl ltac:(vm_compute; discriminate) eq_refl eq_refl ltac:(discriminate)) as (p' & He).
  vm_compute in Hp. injection Hp as <-. vm_compute in He. discriminate He.
Qed.
Print Assumptions C55_accepts_refuted.

Definition ex55 : doc := doc_of (b " {""a"": [1, {""x"":2}], ""b"": ""{s"", ""c"" : 7} ").
Example C55_example :
  wf_doc ex55 = true /\ container (d_val ex55) = true /\ fits (text ex55) /\
  lookup (d_val ex55) [b "a"; b "1"; b "y"; b "z"] = None /\ straight (d_val ex55) [b "a"; b "1"; b "x"] = true /\
  not_object (JString (b "{s")) = true /\ not_array (JScalar (b "7")) = true /\
  exists p, Parse (text ex55) = Ok p /\
    P_Delete p [b "a"; b "1"; b "y"; b "z"] = PRet p (Some (EKeyNotFound (b "y"))) /\
    P_SetKey p (b "c") [b "b"] = PRet p (Some (EKeyAlreadyExist (b "c"))) /\
    P_AddKeyValue p (b "a") (b "0") [] = PRet p (Some (EKeyAlreadyExist (b "a"))) /\
    P_AddKeyValue p (b "k") (b "0") [b "b"] = PRet p (Some EObjectExpected) /\
    P_AddKeyValue p (b "k") (b "0") [b "c"] = PRet p (Some (EBadJSON 0)) /\
    P_Add p (b "0") [b "a"; b "1"] = PRet p (Some EArrayExpected) /\
    P_Add p (b "0") [] = PRet p (Some EArrayExpected) /\
    P_Insert p 0 (b "[]") [b "a"; b "0"] = PRet p (Some (EBadJSON 0)) /\
    P_Insert p 2 (b "[]") [b "a"] = PRet p (Some EIndexOutOfRange).
Proof.
  split; [reflexivity|]. split; [reflexivity|]. split; [vm_compute; discriminate|]. do 4 (split; [reflexivity|]).
  eexists. split; [vm_compute; reflexivity|]. repeat split; vm_compute; reflexivity.
Qed.
