(** Properties C05 - C12, C32 (functions on bytes) and C36: updates. *)
From Coq Require Import String.
From Verif Require Import GoStd Json Spec Parse Focus Domains Core Api Ops History ApiProofs Updates InsertExact.

Local Open Scope N_scope.

(** ** C05 *)
Theorem C05_set_replaces_the_value : forall d p v,
  wf_doc d = true -> p <> [] -> lookup (d_val d) p = Some v ->
  exists A B, text d = A ++ render v ++ B /\ forall new, Set_ (text d) new p = Done (A ++ new ++ B).
Proof. exact set_local. Qed.
Print Assumptions C05_set_replaces_the_value.

Theorem C05_set_gives_the_updated_tree : forall d p new t',
  wf_doc d = true -> p <> [] -> put (d_val d) p new = Some t' ->
  Set_ (text d) (render new) p = Done (text (Doc (d_pre d) t' (d_post d))).
Proof. exact set_put. Qed.
Print Assumptions C05_set_gives_the_updated_tree.

Theorem C05_set_gives_the_updated_content : forall d p new c',
  wf_doc d = true -> wf new = true -> p <> [] ->
  d_modify (content (d_val d)) p (d_const (content new)) = Some c' ->
  exists d', Set_ (text d) (render new) p = Done (text d') /\ matches d d' c'.
Proof. exact set_ok. Qed.
Print Assumptions C05_set_gives_the_updated_content.

Definition ex5 : bytes := b " {""a"" : [1, ""x\\"" ,{""b"":3 }] } ".
Example C05_example :
  let d := doc_of ex5 in
  wf_doc d = true /\ text d = ex5 /\ lookup (d_val d) [b "a"; b "1"] = Some (JString (b "x\\")) /\
  (exists t, put (d_val d) [b "a"; b "1"] (JArr [] []) = Some t) /\
  (exists c, d_modify (content (d_val d)) [b "a"; b "1"] (d_const (DArr [])) = Some c) /\
  Set_ ex5 (b "[]") [b "a"; b "1"] = Done (b " {""a"" : [1, [] ,{""b"":3 }] } ").
Proof. vm_compute. repeat split; eexists; reflexivity. Qed.

(** ** C06 *)
Theorem C06_get_after_set : forall d p new,
  wf_doc d = true -> wf new = true -> p <> [] -> lookup (d_val d) p <> None ->
  exists out, Set_ (text d) (render new) p = Done out /\ Get out p = Ok (bare new).
Proof. exact get_after_set. Qed.
Print Assumptions C06_get_after_set.

Theorem C06_get_elsewhere_after_set : forall d p new q v,
  wf_doc d = true -> wf new = true -> p <> [] -> lookup (d_val d) p <> None ->
  apart (content (d_val d)) p q -> lookup (d_val d) q = Some v ->
  exists out, Set_ (text d) (render new) p = Done out /\ Get out q = Ok (bare v) /\ Get (text d) q = Ok (bare v).
Proof. exact get_after_set_apart. Qed.
Print Assumptions C06_get_elsewhere_after_set.

Example C06_example :
  let d := doc_of ex5 in
  wf_doc d = true /\ lookup (d_val d) [b "a"; b "1"] <> None /\
  apart (content (d_val d)) [b "a"; b "1"] [b "a"; b "2"; b "b"] /\
  lookup (d_val d) [b "a"; b "2"; b "b"] = Some (JScalar (b "3")) /\
  Get (b " {""a"" : [1, [] ,{""b"":3 }] } ") [b "a"; b "2"; b "b"] = Ok (b "3").
Proof.
  intro d. split; [reflexivity|]. split; [vm_compute; discriminate|]. split; [|split; reflexivity].
  intro H. eexists. split; [vm_compute; reflexivity|]. intro H2. vm_compute in H2. discriminate H2.
Qed.

(** ** C07 *)
Theorem C07_delete_removes_one_item : forall d q x c',
  wf_doc d = true -> d_modify (content (d_val d)) q (d_remove x) = Some c' ->
  exists d', Delete (text d) (q ++ [x]) = Done (text d') /\ matches d d' c'.
Proof. exact delete_ok. Qed.
Print Assumptions C07_delete_removes_one_item.

Theorem C07_delete_only_removes_text : forall d p,
  wf_doc d = true -> p <> [] -> lookup (d_val d) p <> None ->
  exists A X B, text d = A ++ X ++ B /\ Delete (text d) p = Done (A ++ B).
Proof. exact delete_local. Qed.
Print Assumptions C07_delete_only_removes_text.

Definition ex7 : bytes := b "{ ""k"" : [ 1 , ""]"" , {""a"":1} ] , ""l"":{""m"":""n""}, ""k"":2 }".
Example C07_example :
  let d := doc_of ex7 in
  wf_doc d = true /\
  d_modify (content (d_val d)) [b "k"] (d_remove (b "1")) <> None /\
  d_modify (content (d_val d)) [] (d_remove (b "k")) <> None /\
  Delete ex7 [b "k"; b "0"] = Done (b "{ ""k"" : [  ""]"" , {""a"":1} ] , ""l"":{""m"":""n""}, ""k"":2 }") /\
  Delete ex7 [b "k"; b "1"] = Done (b "{ ""k"" : [ 1 ,  {""a"":1} ] , ""l"":{""m"":""n""}, ""k"":2 }") /\
  Delete ex7 [b "k"; b "2"] = Done (b "{ ""k"" : [ 1 , ""]""  ] , ""l"":{""m"":""n""}, ""k"":2 }") /\
  Delete ex7 [b "k"; b "2"; b "a"] = Done (b "{ ""k"" : [ 1 , ""]"" , {} ] , ""l"":{""m"":""n""}, ""k"":2 }") /\
  Delete ex7 [b "k"] = Done (b "{  ""l"":{""m"":""n""}, ""k"":2 }").
Proof. vm_compute. repeat split; discriminate. Qed.

(** ** C08

    Full statement: false, because [C03] is (see [C08_add_pair_refuted]).  The partial theorem needs the
    absence of the key to be visible to the scanner ([seen_absent]) unless the object is empty. *)
Definition C08_statement : Prop := forall d p k value c',
  wf_doc d = true -> wf (value_text value) = true -> str_ok k = true ->
  d_modify (content (d_val d)) p (d_add k (content (value_text value))) = Some c' ->
  exists d', AddKeyValue (text d) k (option_map render value) p = Done (text d') /\ matches d d' c'.

Theorem C08_add_pair_partial : forall d p k value c',
  wf_doc d = true -> wf (value_text value) = true -> str_ok k = true ->
  d_modify (content (d_val d)) p (d_add k (content (value_text value))) = Some c' ->
  (seen_absent d p k \/ exists w, lookup (d_val d) p = Some (JObj w [])) ->
  exists d', AddKeyValue (text d) k (option_map render value) p = Done (text d') /\ matches d d' c'.
Proof. exact add_kv_ok. Qed.
Print Assumptions C08_add_pair_partial.

(** Refused if the search for the key ends in another object. *)
Theorem C08_add_pair_stray : forall d q x w ms v,
  wf_doc d = true -> lookup (d_val d) q = Some (JObj w ms) -> find_mem x ms = None -> stray_at (d_val d) q x = Stray v ->
  forall value, ms <> [] -> AddKeyValue (text d) x (option_map render value) q = Fail (Some (text d)) (EKeyAlreadyExist x).
Proof. exact add_kv_strayed. Qed.
Print Assumptions C08_add_pair_stray.

Theorem C08_present_key : forall d p k value u,
  wf_doc d = true -> d_lookup (content (d_val d)) (p ++ [k]) = Some u ->
  (exists w ms, lookup (d_val d) p = Some (JObj w ms)) ->
  AddKeyValue (text d) k value p = Fail (Some (text d)) (EKeyAlreadyExist k).
Proof. exact add_kv_present. Qed.
Print Assumptions C08_present_key.

Theorem C08_not_an_object : forall d p pre v post k value,
  wf_doc d = true -> focus (d_val d) p pre v post -> is_obj v = false -> (p <> [] -> looks 123 125 v = false) ->
  AddKeyValue (text d) k value p =
  Fail (Some (text d)) (if (length (text d) <? 2)%nat then EBadJSON 0 else EObjectExpected).
Proof. exact add_kv_not_object. Qed.
Print Assumptions C08_not_an_object.

Theorem C08_add_pair_refuted :
  ~ C08_statement /\
  AddKeyValue (b "{""x"":{""a"":1},""y"":{""b"":5,""c"":6}}") (b "c") (Some (b "9")) [b "x"] =
    Fail (Some (b "{""x"":{""a"":1},""y"":{""b"":5,""c"":6}}")) (EKeyAlreadyExist (b "c")) /\
  AddKeyValue (b "{""a"":""{}""}") (b "c") (Some (b "9")) [b "a"] = Done (b "{""a"":""{""c"":9}""}").
Proof.
  split; [|vm_compute; repeat split]. intro H.
  destruct (H (doc_of (b "{""x"":{""a"":1},""y"":{""b"":5,""c"":6}}")) [b "x"] (b "c") (Some (JScalar (b "9"))) _
    eq_refl eq_refl eq_refl eq_refl) as (d' & Hd & _). vm_compute in Hd. discriminate Hd.
Qed.
Print Assumptions C08_add_pair_refuted.

Definition ex8 : bytes := b "{""a"":[ {""c"":{ }}] }".
Example C08_example :
  let d := doc_of ex8 in
  wf_doc d = true /\ str_ok (b "k") = true /\ seen_absent d [b "a"; b "0"] (b "k") /\
  d_modify (content (d_val d)) [b "a"; b "0"] (d_add (b "k") (content (value_text None))) <> None /\
  (exists w, lookup (d_val d) [b "a"; b "0"; b "c"] = Some (JObj w [])) /\
  AddKeyValue ex8 (b "k") None [b "a"; b "0"] = Done (b "{""a"":[ {""c"":{ },""k"":null}] }") /\
  AddKeyValue ex8 (b "k") (Some (b "1")) [b "a"; b "0"; b "c"] = Done (b "{""a"":[ {""c"":{ ""k"":1}}] }") /\
  AddKeyValue ex8 (b "a") (Some (b "1")) [] = Fail (Some ex8) (EKeyAlreadyExist (b "a")) /\
  AddKeyValue ex8 (b "a") (Some (b "1")) [b "a"] = Fail (Some ex8) EObjectExpected.
Proof.
  intro d. split; [reflexivity|]. split; [reflexivity|]. split; [apply seen_absent_b_sound; reflexivity|].
  split; [vm_compute; discriminate|]. split; [eexists; reflexivity|]. vm_compute. repeat split.
Qed.

(** ** C09

    Full statement: the third theorem would have to hold without the condition on strings that look like
    arrays; without it it is false ([C09_add_element_refuted]).  The main part is unconditional. *)
Theorem C09_add_appends_one_element : forall d p value c',
  wf_doc d = true -> wf value = true ->
  d_modify (content (d_val d)) p (d_append (content value)) = Some c' ->
  exists d', Add_ (text d) (render value) p = Done (text d') /\ matches d d' c'.
Proof. exact add_ok. Qed.
Print Assumptions C09_add_appends_one_element.

Theorem C09_add_only_adds_text : forall d p w els value,
  wf_doc d = true -> lookup (d_val d) p = Some (JArr w els) ->
  exists A B, text d = A ++ B /\
    Add_ (text d) (render value) p = Done (A ++ (match els with [] => [] | _ => [44] end) ++ render value ++ B).
Proof. exact add_local. Qed.
Print Assumptions C09_add_only_adds_text.

Theorem C09_not_an_array_partial : forall d p pre v post value,
  wf_doc d = true -> focus (d_val d) p pre v post -> is_arr v = false -> (p <> [] -> looks 91 93 v = false) ->
  Add_ (text d) value p = Fail (Some (text d)) (if (length (text d) <? 2)%nat then EBadJSON 0 else EArrayExpected).
Proof. exact add_not_array. Qed.
Print Assumptions C09_not_an_array_partial.

Definition C09_statement : Prop := forall d p v value,
  wf_doc d = true -> lookup (d_val d) p = Some v -> is_arr v = false ->
  exists e, Add_ (text d) value p = Fail (Some (text d)) e.
Theorem C09_add_element_refuted :
  ~ C09_statement /\ Add_ (b "{""a"":""[]""}") (b "5") [b "a"] = Done (b "{""a"":""[5]""}").
Proof.
  split; [|reflexivity]. intro H.
  destruct (H (doc_of (b "{""a"":""[]""}")) [b "a"] _ (b "5") eq_refl eq_refl eq_refl) as (e & He).
  vm_compute in He. discriminate He.
Qed.
Print Assumptions C09_add_element_refuted.

Definition ex9 : bytes := b " [ [ ] , {""a"":[ 1 ]} ] ".
Example C09_example :
  let d := doc_of ex9 in
  wf_doc d = true /\ d_modify (content (d_val d)) [b "0"] (d_append (DScalar (b "7"))) <> None /\
  d_modify (content (d_val d)) [] (d_append (DScalar (b "7"))) <> None /\
  Add_ ex9 (b "7") [] = Done (b " [ [ ] , {""a"":[ 1 ]} ,7] ") /\
  Add_ ex9 (b "7") [b "0"] = Done (b " [ [ 7] , {""a"":[ 1 ]} ] ") /\
  Add_ ex9 (b "7") [b "1"; b "a"] = Done (b " [ [ ] , {""a"":[ 1 ,7]} ] ") /\
  Add_ ex9 (b "7") [b "1"] = Fail (Some ex9) EArrayExpected.
Proof. vm_compute. repeat split; discriminate. Qed.

(** ** C10

    Full statement: false when the last of several elements is preceded by whitespace
    ([C10_insert_refuted]); that is all that is missing from the partial theorem. *)
Definition C10_statement : Prop := forall d p z value c',
  wf_doc d = true -> wf value = true -> (z <= int64_max)%Z ->
  d_modify (content (d_val d)) p (d_insert z (content value)) = Some c' ->
  exists d', Insert (text d) z (render value) p = Done (text d') /\ matches d d' c'.

Theorem C10_insert_partial : forall d p z value c' w els,
  wf_doc d = true -> wf value = true -> (z <= int64_max)%Z ->
  lookup (d_val d) p = Some (JArr w els) -> insert_layout els z ->
  d_modify (content (d_val d)) p (d_insert z (content value)) = Some c' ->
  exists d', Insert (text d) z (render value) p = Done (text d') /\ matches d d' c'.
Proof. exact insert_ok. Qed.
Print Assumptions C10_insert_partial.

(** Exactly these layouts: on the others what comes out is not the text of any document. *)
Theorem C10_insert_exact : forall d p z value w els e,
  wf_doc d = true -> wf value = true -> (z <= int64_max)%Z ->
  lookup (d_val d) p = Some (JArr w els) -> nth_z els z = Some e ->
  (exists d', wf_doc d' = true /\ Insert (text d) z (render value) p = Done (text d')) <-> insert_layout els z.
Proof. exact insert_exact. Qed.
Print Assumptions C10_insert_exact.

(** What comes out: a comma and the value in front of the last blank before the element, whatever the value is. *)
Theorem C10_insert_garbles : forall d p w l1 e W c value,
  wf_doc d = true -> lookup (d_val d) p = Some (JArr w (l1 ++ [e])) -> (Z.of_nat (length l1) <= int64_max)%Z ->
  l1 <> [] -> e_pre e = W ++ [c] ->
  exists A B, text d = A ++ join (map elem_text l1) ++ 44 :: W ++ c :: render (e_val e) ++ e_post e ++ 93 :: B /\
    Insert (text d) (Z.of_nat (length l1)) value p =
    Done (A ++ join (map elem_text l1) ++ 44 :: W ++ 44 :: value ++ c :: render (e_val e) ++ e_post e ++ 93 :: B) /\
    forall d', wf_doc d' = true -> text d' <> A ++ join (map elem_text l1) ++ 44 :: W ++ 44 :: value ++ c :: render (e_val e) ++ e_post e ++ 93 :: B.
Proof. exact insert_garbles. Qed.
Print Assumptions C10_insert_garbles.

Example C10_garbles_example :
  let d := doc_of (b "{""a"":[ ""x"",  [2] ]}") in
  wf_doc d = true /\
  (exists l1 e, lookup (d_val d) [b "a"] = Some (JArr [] (l1 ++ [e])) /\ length l1 = 1%nat /\ e_pre e = b " " ++ [32]) /\
  Insert (text d) 1 (b "9") [b "a"] = Done (b "{""a"":[ ""x"", ,9 [2] ]}").
Proof.
  vm_compute. split; [reflexivity|]. split; [|reflexivity].
  eexists [_], _. split; [reflexivity|]. split; reflexivity.
Qed.

Theorem C10_index_out_of_range : forall d p z value w els,
  wf_doc d = true -> in_int64 z = true -> lookup (d_val d) p = Some (JArr w els) -> nth_z els z = None ->
  Insert (text d) z value p =
  Fail (Some (text d)) (match els with [] => if (z =? 0)%Z then EEmptyArray else EIndexOutOfRange | _ => EIndexOutOfRange end).
Proof. exact insert_range. Qed.
Print Assumptions C10_index_out_of_range.

Theorem C10_not_an_array_partial : forall d p pre v post z value,
  wf_doc d = true -> focus (d_val d) p pre v post -> is_arr v = false -> (p <> [] -> looks 91 93 v = false) ->
  Insert (text d) z value p = Fail (Some (text d)) EArrayExpected.
Proof. exact insert_not_array. Qed.
Print Assumptions C10_not_an_array_partial.

Theorem C10_insert_refuted :
  ~ C10_statement /\ Insert (b "[1, 2]") 1 (b "9") [] = Done (b "[1,,9 2]").
Proof.
  split; [|reflexivity]. intro H.
  destruct (H (doc_of (b "[1, 2]")) [] 1%Z (JScalar (b "9")) _ eq_refl eq_refl ltac:(discriminate) eq_refl) as (d' & Hd & Hm & _).
  remember (text d') as o eqn:Ho in Hd. vm_compute in Hd. injection Hd as Hd. rewrite Ho in Hd.
  destruct (parse_doc_complete d' Hm) as (d2 & Hp & _). rewrite <- Hd in Hp. vm_compute in Hp. discriminate Hp.
Qed.
Print Assumptions C10_insert_refuted.

Definition ex10 : bytes := b "{""a"":[ ""x"" , [2],3]}".
Example C10_example :
  let d := doc_of ex10 in
  wf_doc d = true /\
  (exists w els, lookup (d_val d) [b "a"] = Some (JArr w els) /\ insert_layout els 0 /\ insert_layout els 1 /\
                 insert_layout els 2 /\ nth_z els 3%Z = None) /\
  d_modify (content (d_val d)) [b "a"] (d_insert 2 (DScalar (b "9"))) <> None /\
  Insert ex10 0 (b "9") [b "a"] = Done (b "{""a"":[ 9,""x"" , [2],3]}") /\
  Insert ex10 1 (b "9") [b "a"] = Done (b "{""a"":[ ""x"" , 9,[2],3]}") /\
  Insert ex10 2 (b "9") [b "a"] = Done (b "{""a"":[ ""x"" , [2],9,3]}") /\
  Insert ex10 0 (b "9") [b "a"; b "1"] = Done (b "{""a"":[ ""x"" , [9,2],3]}") /\
  Insert ex10 3 (b "9") [b "a"] = Fail (Some ex10) EIndexOutOfRange.
Proof.
  intro d. split; [reflexivity|]. split.
  - eexists _, _. split; [reflexivity|]. split; [left; reflexivity|]. split; [left; reflexivity|].
    split; [|reflexivity]. right. right. eexists. split; reflexivity.
  - vm_compute. repeat split; discriminate.
Qed.

(** ** C11

    Full statement: false because [C03] is ([C11_setkey_refuted]). *)
Definition C11_statement : Prop := forall d q x k c',
  wf_doc d = true -> str_ok k = true -> k <> [] ->
  d_modify (content (d_val d)) q (d_rename x k) = Some c' ->
  exists d', SetKey (text d) k (q ++ [x]) = Done (text d') /\ matches d d' c'.

Theorem C11_setkey_partial : forall d q x k c',
  wf_doc d = true -> str_ok k = true -> k <> [] ->
  d_modify (content (d_val d)) q (d_rename x k) = Some c' -> seen_absent d q k ->
  exists d', SetKey (text d) k (q ++ [x]) = Done (text d') /\ matches d d' c'.
Proof. exact setkey_ok. Qed.
Print Assumptions C11_setkey_partial.

(** Refused if the search for the new key ends in another object. *)
Theorem C11_setkey_stray : forall d q x w ms v,
  wf_doc d = true -> lookup (d_val d) q = Some (JObj w ms) -> find_mem x ms = None -> stray_at (d_val d) q x = Stray v ->
  forall y, x <> [] -> SetKey (text d) x (q ++ [y]) = Fail (Some (text d)) (EBadJSON 0).
Proof. exact setkey_strayed. Qed.
Print Assumptions C11_setkey_stray.

Theorem C11_key_taken : forall d q x k u,
  wf_doc d = true -> k <> [] -> d_lookup (content (d_val d)) (q ++ [k]) = Some u ->
  SetKey (text d) k (q ++ [x]) = Fail (Some (text d)) (EBadJSON 0).
Proof. exact setkey_taken. Qed.
Print Assumptions C11_key_taken.

Theorem C11_array_element : forall d q x k w els pre post,
  wf_doc d = true -> k <> [] -> focus (d_val d) q pre (JArr w els) post ->
  exists e, SetKey (text d) k (q ++ [x]) = Fail (Some (text d)) e.
Proof. exact setkey_array. Qed.
Print Assumptions C11_array_element.

Theorem C11_setkey_refuted :
  ~ C11_statement /\
  SetKey (b "{""x"":{""a"":1},""y"":{""b"":5,""c"":6}}") (b "c") [b "x"; b "a"] =
    Fail (Some (b "{""x"":{""a"":1},""y"":{""b"":5,""c"":6}}")) (EBadJSON 0).
Proof.
  split; [|reflexivity]. intro H.
  destruct (H (doc_of (b "{""x"":{""a"":1},""y"":{""b"":5,""c"":6}}")) [b "x"] (b "a") (b "c") _
    eq_refl eq_refl ltac:(discriminate) eq_refl) as (d' & Hd & _). vm_compute in Hd. discriminate Hd.
Qed.
Print Assumptions C11_setkey_refuted.

Definition ex11 : bytes := b "{""x"":[{ ""a\"""" : 1, ""b"":2}]}".
Example C11_example :
  let d := doc_of ex11 in
  wf_doc d = true /\ seen_absent d [b "x"; b "0"] (b "new") /\
  d_modify (content (d_val d)) [b "x"; b "0"] (d_rename (b "a\""") (b "new")) <> None /\
  SetKey ex11 (b "new") [b "x"; b "0"; b "a\"""] = Done (b "{""x"":[{ ""new"" : 1, ""b"":2}]}") /\
  SetKey ex11 (b "b") [b "x"; b "0"; b "a\"""] = Fail (Some ex11) (EBadJSON 0) /\
  SetKey ex11 (b "b") [b "x"; b "0"] = Fail (Some ex11) EIndexExpected.
Proof.
  intro d. split; [reflexivity|]. split; [apply seen_absent_b_sound; reflexivity|].
  split; [vm_compute; discriminate|]. vm_compute. repeat split.
Qed.

(** ** C12

    Full statement: false because [C03] is ([C12_store_refuted]): Store can overwrite a sibling's member.
    A nil value on a present key also breaks the document. *)
Definition C12_statement : Prop := forall d p k v c',
  wf_doc d = true -> wf v = true -> str_ok k = true ->
  d_modify (content (d_val d)) p (d_store k (content v)) = Some c' ->
  exists d', Store (text d) k (Some (render v)) p = Done (text d') /\ matches d d' c'.

Theorem C12_store_partial : forall d p k v c',
  wf_doc d = true -> wf v = true -> str_ok k = true ->
  d_modify (content (d_val d)) p (d_store k (content v)) = Some c' ->
  (d_lookup (content (d_val d)) (p ++ [k]) <> None \/ seen_absent d p k) ->
  exists d', Store (text d) k (Some (render v)) p = Done (text d') /\ matches d d' c'.
Proof. exact store_ok. Qed.
Print Assumptions C12_store_partial.

(** Overwrites the other value if the search for the key ends in another object. *)
Theorem C12_store_stray : forall d q x w ms v,
  wf_doc d = true -> lookup (d_val d) q = Some (JObj w ms) -> find_mem x ms = None -> stray_at (d_val d) q x = Stray v ->
  forall new, exists A B, text d = A ++ render v ++ B /\ Store (text d) x (Some new) q = Done (A ++ new ++ B).
Proof. exact store_strayed. Qed.
Print Assumptions C12_store_stray.

Definition ex_stray : bytes := b "{""x"":{""a"":1},""y"":[{""c"":0},2,{""d"":3}], ""z"": {""b"":5 , ""c"" : 6}}".
Example stray_example :
  let d := doc_of ex_stray in
  wf_doc d = true /\ (exists w ms, lookup (d_val d) [b "x"] = Some (JObj w ms) /\ find_mem (b "c") ms = None /\ ms <> []) /\
  stray_at (d_val d) [b "x"] (b "c") = Stray (JScalar (b "6")) /\
  AddKeyValue ex_stray (b "c") (Some (b "9")) [b "x"] = Fail (Some ex_stray) (EKeyAlreadyExist (b "c")) /\
  SetKey ex_stray (b "c") [b "x"; b "a"] = Fail (Some ex_stray) (EBadJSON 0) /\
  Store ex_stray (b "c") (Some (b "9")) [b "x"] = Done (b "{""x"":{""a"":1},""y"":[{""c"":0},2,{""d"":3}], ""z"": {""b"":5 , ""c"" : 9}}").
Proof. vm_compute. repeat split. do 2 eexists. repeat split. discriminate. Qed.

Theorem C12_store_refuted :
  ~ C12_statement /\
  Store (b "{""x"":{""a"":1},""y"":{""b"":5,""c"":6}}") (b "c") (Some (b "9")) [b "x"] =
    Done (b "{""x"":{""a"":1},""y"":{""b"":5,""c"":9}}") /\
  Store (b "{""a"":1}") (b "a") None [] = Done (b "{""a"":}").
Proof.
  split; [|vm_compute; repeat split]. intro H.
  destruct (H (doc_of (b "{""x"":{""a"":1},""y"":{""b"":5,""c"":6}}")) [b "x"] (b "c") (JScalar (b "9")) _
    eq_refl eq_refl eq_refl eq_refl) as (d' & Hd & Hw & _ & _ & Hc). remember (text d') as o eqn:Ho in Hd. vm_compute in Hd. injection Hd as Hd. rewrite Ho in Hd.
  assert (E : content (d_val d') = content (d_val (doc_of (b "{""x"":{""a"":1},""y"":{""b"":5,""c"":9}}")))).
  { apply content_unique; [exact Hw|reflexivity|]. rewrite <- Hd. reflexivity. }
  rewrite Hc in E. vm_compute in E. discriminate E.
Qed.
Print Assumptions C12_store_refuted.

Example C12_example :
  let d := doc_of ex11 in
  wf_doc d = true /\ seen_absent d [b "x"; b "0"] (b "new") /\
  d_lookup (content (d_val d)) [b "x"; b "0"; b "b"] <> None /\
  d_modify (content (d_val d)) [b "x"; b "0"] (d_store (b "new") (DScalar (b "9"))) <> None /\
  Store ex11 (b "new") (Some (b "9")) [b "x"; b "0"] = Done (b "{""x"":[{ ""a\"""" : 1, ""b"":2,""new"":9}]}") /\
  Store ex11 (b "b") (Some (b "9")) [b "x"; b "0"] = Done (b "{""x"":[{ ""a\"""" : 1, ""b"":9}]}") /\
  Store (b "{""a"":""s""}") (b "a") (Some (b "9")) [] = Done (b "{""a"":9}").
Proof.
  intro d. split; [reflexivity|]. split; [apply seen_absent_b_sound; reflexivity|].
  split; [vm_compute; discriminate|]. split; [vm_compute; discriminate|]. vm_compute. repeat split.
Qed.

(** ** C36

    Full statement: false, because single operations already fail it (C08, C10, C11, C12).  Proved: all
    histories of Set, Delete and Add; and all histories of all seven operations in which each operation is
    in the domain of its theorem or is one of those proved to be rejected. *)
Theorem C36_set_delete_add : forall ops, Forall plain_op ops -> forall d c', wf_doc d = true ->
  meanings ops (content (d_val d)) = Some c' ->
  exists d', run ops (text d) = Some (text d') /\ wf_doc d' = true /\ content (d_val d') = c'.
Proof. exact history_plain. Qed.
Print Assumptions C36_set_delete_add.

Theorem C36_history_partial : forall d ops c', wf_doc d = true -> lawful d ops c' ->
  exists d', run ops (text d) = Some (text d') /\ wf_doc d' = true /\ content (d_val d') = c'.
Proof. exact history. Qed.
Print Assumptions C36_history_partial.

Definition C36_statement : Prop := forall d ops c',
  wf_doc d = true -> Forall op_ok ops -> meanings ops (content (d_val d)) = Some c' ->
  exists d', run ops (text d) = Some (text d') /\ wf_doc d' = true /\ content (d_val d') = c'.
Theorem C36_history_refuted : ~ C36_statement.
Proof.
  intro H.
  specialize (H (doc_of (b "[1, 2]")) [OInsert [] 1 (JScalar (b "9"))]
    (DArr [DScalar (b "1"); DScalar (b "9"); DScalar (b "2")]) eq_refl).
  destruct H as (d' & Hd & Hm & _).
  { repeat constructor. }
  { vm_compute. reflexivity. }
  remember (text d') as o eqn:Ho in Hd. vm_compute in Hd. injection Hd as Hd. rewrite Ho in Hd.
  destruct (parse_doc_complete d' Hm) as (d2 & Hp & _). rewrite <- Hd in Hp. vm_compute in Hp. discriminate Hp.
Qed.
Print Assumptions C36_history_refuted.

Example C36_example :
  let d := doc_of (b "{""a"":[1, 2]}") in
  let ops := [OAdd [b "a"] (JObj [] []); ODelete [b "a"] (b "1"); OSet [b "a"; b "1"] (JString (b "x"))] in
  Forall plain_op ops /\ wf_doc d = true /\
  meanings ops (content (d_val d)) = Some (DObj [(b "a", DArr [DScalar (b "1"); DString (b "x")])]) /\
  run ops (text d) = Some (b "{""a"":[1, ""x""]}") /\
  lawful d [OAdd [b "q"] (JObj [] []); OAddKV [] (b "k") (JScalar (b "1"))]
    (DObj [(b "a", DArr [DScalar (b "1"); DScalar (b "2")]); (b "k", DScalar (b "1"))]) /\
  run [OAdd [b "q"] (JObj [] []); OAddKV [] (b "k") (JScalar (b "1"))] (text d) = Some (b "{""a"":[1, 2],""k"":1}").
Proof.
  intros d ops. split; [repeat constructor; discriminate|]. split; [reflexivity|]. split; [reflexivity|].
  split; [reflexivity|]. split; [|reflexivity].
  apply L_skip.
  - left. right. left. exists [], (b "q"), []. split; [reflexivity|]. apply seen_absent_b_sound. reflexivity.
  - eapply L_do.
    + split; [reflexivity|]. split; [reflexivity|]. left. apply seen_absent_b_sound. reflexivity.
    + reflexivity.
    + intros d' _ _ Hc. match goal with |- lawful _ _ ?c => replace c with (content (d_val d')) by (rewrite Hc; vm_compute; reflexivity) end. apply L_nil.
Qed.
