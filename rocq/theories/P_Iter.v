(** Properties C13 - C16, C19 and C38: iteration, listings, counts and maps. *)
From Coq Require Import String.
From Verif Require Import GoStd Json Spec SpecIter SpecList Parse Focus Domains Errors Core Api Iter IterProofs IterObj IterMisc Split ListExact TypeExact.

Local Open Scope N_scope.

(** ** C13

    Full statement: false on empty arrays other than the two-byte document, see [C13_iterate_array_refuted].
    [visit] is the specification of a left-to-right traversal with an arbitrary state-passing callback. *)
Definition C13_statement : Prop :=
  forall (St : Type) (cb : St -> bytes -> St * (bool * option err)) d p w els s,
  wf_doc d = true -> lookup (d_val d) p = Some (JArr w els) ->
  IterateArray (text d) cb p s = IDone (fst (visit cb (items els) s)) (snd (visit cb (items els) s)).

Theorem C13_iterate_array_partial :
  forall (St : Type) (cb : St -> bytes -> St * (bool * option err)) d p w els s,
  wf_doc d = true -> lookup (d_val d) p = Some (JArr w els) -> els <> [] ->
  IterateArray (text d) cb p s = IDone (fst (visit cb (items els) s)) (snd (visit cb (items els) s)).
Proof. exact (fun St cb d p w els s Hw Hl Hn => eq_trans (iterate_array cb d p w els s Hw Hl Hn) (idone_eq _)). Qed.
Print Assumptions C13_iterate_array_partial.

Theorem C13_empty_array_exact :
  forall (St : Type) (cb : St -> bytes -> St * (bool * option err)) d p w s,
  wf_doc d = true -> lookup (d_val d) p = Some (JArr w []) ->
  IterateArray (text d) cb p s =
  if bytes_eqb (text d) (b "[]") then IDone s None
  else IDone (fst (cb s (skipn (pred (length w)) w))) (snd (snd (cb s (skipn (pred (length w)) w)))).
Proof. exact (@iterate_array_empty'). Qed.
Print Assumptions C13_empty_array_exact.

Theorem C13_not_an_array :
  forall (St : Type) (cb : St -> bytes -> St * (bool * option err)) d p v s,
  wf_doc d = true -> lookup (d_val d) p = Some v -> is_arr v = false ->
  IterateArray (text d) cb p s = IDone s (Some (if (length (text d) <? 3)%nat then EBadJSON 0 else EArrayExpected)).
Proof. exact (@iterate_array_wrong). Qed.
Print Assumptions C13_not_an_array.

(** A callback that records what it is shown, stops at [stop] and fails at [bad]. *)
Definition ex_cb (stop bad : bytes) (s : list bytes) (x : bytes) : list bytes * (bool * option err) :=
  (s ++ [x], (negb (bytes_eqb x stop), if bytes_eqb x bad then Some EEmpty else None)).

Theorem C13_iterate_array_refuted :
  ~ C13_statement /\
  IterateArray (b "[ ]") (ex_cb [] []) [] [] = IDone [b " "] None /\
  IterateArray (b "{""a"":[]}") (ex_cb (b "q") (b "q")) [b "a"] [] = IDone [b ""] None.
Proof.
  split; [|split; reflexivity]. intro H.
  specialize (H (list bytes) (ex_cb [] []) (doc_of (b "[ ]")) [] (b " ") [] [] eq_refl eq_refl).
  vm_compute in H. discriminate H.
Qed.
Print Assumptions C13_iterate_array_refuted.

Definition ex13 : bytes := b " {""k"": [ 1 , "" ,]\\"" ,[ 2,3 ] , {""a"":[""]""]}, null ] ,""z"":[]} ".
Example C13_example :
  let d := doc_of ex13 in
  wf_doc d = true /\ text d = ex13 /\ (exists w els, lookup (d_val d) [b "k"] = Some (JArr w els) /\ length els = 5%nat) /\
  IterateArray ex13 (ex_cb (b "#") (b "#")) [b "k"] [] =
    IDone [b "1"; b " ,]\\"; b "[ 2,3 ]"; b "{""a"":[""]""]}"; b "null"] None /\
  IterateArray ex13 (ex_cb (b "[ 2,3 ]") (b "#")) [b "k"] [] = IDone [b "1"; b " ,]\\"; b "[ 2,3 ]"] None /\
  IterateArray ex13 (ex_cb (b "1") (b "1")) [b "k"] [] = IDone [b "1"] (Some EEmpty) /\
  IterateArray ex13 (ex_cb (b "#") (b "null")) [b "k"] [] =
    IDone [b "1"; b " ,]\\"; b "[ 2,3 ]"; b "{""a"":[""]""]}"; b "null"] (Some EEmpty) /\
  IterateArray (b " [ 1,2 ] ") (ex_cb (b "#") (b "#")) [] [] = IDone [b "1"; b "2"] None /\
  IterateArray (b "[]") (ex_cb (b "#") (b "#")) [] [] = IDone [] None /\
  IterateArray ex13 (ex_cb (b "#") (b "#")) [b "k"; b "1"] [] = IDone [] (Some EArrayExpected).
Proof. vm_compute. repeat split. do 2 eexists. split; reflexivity. Qed.

(** ** C14

    Full statement: false on empty objects, for the error of the callback on the last pair, and for one-byte
    values followed by whitespace, see [C14_iterate_key_value_refuted]. *)
Definition C14_statement : Prop :=
  forall (St : Type) (cb : St -> bytes -> bytes -> St * (bool * option err)) d p w ms s,
  wf_doc d = true -> lookup (d_val d) p = Some (JObj w ms) ->
  IterateKeyValue (text d) cb p s =
  IDone (fst (visit (uncurry2 cb) (pairs ms) s)) (snd (visit (uncurry2 cb) (pairs ms) s)).

Theorem C14_iterate_key_value_partial :
  forall (St : Type) (cb : St -> bytes -> bytes -> St * (bool * option err)) d p w ms s,
  wf_doc d = true -> lookup (d_val d) p = Some (JObj w ms) -> ms <> [] -> Forall tight (removelast ms) ->
  IterateKeyValue (text d) cb p s =
  IDone (fst (visit (uncurry2 cb) (pairs ms) s)) (snd (visit (uncurry2 cb) (removelast (pairs ms)) s)).
Proof. exact (@iterate_kv_tight). Qed.
Print Assumptions C14_iterate_key_value_partial.

(** On every object: an empty object other than the whole text "{}" counts as one pair of an empty key and an
    opening brace, a one-byte value before a comma keeps the whitespace after it, and the callback's error on
    the last pair is lost. *)
Theorem C14_iterate_key_value_exact :
  forall (St : Type) (cb : St -> bytes -> bytes -> St * (bool * option err)) d p w ms s,
  wf_doc d = true -> lookup (d_val d) p = Some (JObj w ms) ->
  IterateKeyValue (text d) cb p s =
  if bytes_eqb (text d) (b "{}") then IDone s (Some EEmpty)
  else IDone (fst (visit (uncurry2 cb) (object_pairs ms) s)) (snd (visit (uncurry2 cb) (removelast (object_pairs ms)) s)).
Proof. exact (@iterate_kv_exact). Qed.
Print Assumptions C14_iterate_key_value_exact.

Theorem C14_not_an_object :
  forall (St : Type) (cb : St -> bytes -> bytes -> St * (bool * option err)) d p v s,
  wf_doc d = true -> lookup (d_val d) p = Some v -> is_obj v = false ->
  IterateKeyValue (text d) cb p s = IDone s (Some EObjectExpected).
Proof. exact (@iterate_kv_wrong). Qed.
Print Assumptions C14_not_an_object.

Definition ex_cb2 (stop bad : bytes) (s : list (bytes * bytes)) (k v : bytes) : list (bytes * bytes) * (bool * option err) :=
  (s ++ [(k, v)], (negb (bytes_eqb k stop), if bytes_eqb k bad then Some EEmpty else None)).

Theorem C14_iterate_key_value_refuted :
  ~ C14_statement /\
  IterateKeyValue (b "{ }") (ex_cb2 [] []) [] [] = IDone [(b "", b "{")] None /\
  IterateKeyValue (b "{}") (ex_cb2 [] []) [] [] = IDone [] (Some EEmpty) /\
  IterateKeyValue (b "{""a"":1,""b"":2}") (ex_cb2 [] (b "b")) [] [] = IDone [(b "a", b "1"); (b "b", b "2")] None /\
  IterateKeyValue (b "{""a"":1 ,""b"":2}") (ex_cb2 [] []) [] [] = IDone [(b "a", b "1 "); (b "b", b "2")] None.
Proof.
  split; [|vm_compute; repeat split]. intro H.
  specialize (H _ (ex_cb2 [] (b "b")) (doc_of (b "{""a"":1,""b"":2}")) [] [] _ [] eq_refl eq_refl).
  vm_compute in H. discriminate H.
Qed.
Print Assumptions C14_iterate_key_value_refuted.

Definition ex14 : bytes := b " {""o"" : { ""a"" : [ 1,{""b"":2}] , ""q\"""":""}, :"" ,""c"" : {""d"" :3 } ,""z"": 9 }} ".
Example C14_example :
  let d := doc_of ex14 in
  wf_doc d = true /\ text d = ex14 /\
  (exists w ms, lookup (d_val d) [b "o"] = Some (JObj w ms) /\ length ms = 4%nat /\ Forall tight (removelast ms)) /\
  IterateKeyValue ex14 (ex_cb2 (b "#") (b "#")) [b "o"] [] =
    IDone [(b "a", b "[ 1,{""b"":2}]"); (b "q\""", b "}, :"); (b "c", b "{""d"" :3 }"); (b "z", b "9")] None /\
  IterateKeyValue ex14 (ex_cb2 (b "q\""") (b "#")) [b "o"] [] = IDone [(b "a", b "[ 1,{""b"":2}]"); (b "q\""", b "}, :")] None /\
  IterateKeyValue ex14 (ex_cb2 (b "#") (b "c")) [b "o"] [] =
    IDone [(b "a", b "[ 1,{""b"":2}]"); (b "q\""", b "}, :"); (b "c", b "{""d"" :3 }")] (Some EEmpty) /\
  IterateKeyValue ex14 (ex_cb2 (b "#") (b "#")) [b "o"; b "a"] [] = IDone [] (Some EObjectExpected).
Proof.
  vm_compute. repeat split. do 2 eexists. split; [reflexivity|]. split; [reflexivity|].
  repeat (apply Forall_cons; [first [left; reflexivity | right; vm_compute; lia]|]). constructor.
Qed.

(** ** C15

    Full statement: false on empty objects and for a one-byte value with whitespace after but not before it,
    see [C15_listing_refuted].  Keys: the only exception is the two-byte document. *)
Definition C15_statement : Prop := forall d p w ms,
  wf_doc d = true -> lookup (d_val d) p = Some (JObj w ms) ->
  GetKeys (text d) p = Ok (keys ms) /\ GetValues (text d) p = Ok (values ms) /\
  GetKeysValues (text d) p = Ok (keys ms, values ms).

Theorem C15_get_keys_partial : forall d p w ms,
  wf_doc d = true -> lookup (d_val d) p = Some (JObj w ms) ->
  GetKeys (text d) p = if bytes_eqb (text d) (b "{}") then Err EEmpty else Ok (keys ms).
Proof. exact get_keys. Qed.
Print Assumptions C15_get_keys_partial.

Theorem C15_get_values_partial : forall d p w ms,
  wf_doc d = true -> lookup (d_val d) p = Some (JObj w ms) -> ms <> [] -> Forall tight_m ms ->
  GetValues (text d) p = Ok (values ms).
Proof. exact get_values. Qed.
Print Assumptions C15_get_values_partial.

Theorem C15_get_keys_values_partial : forall d p w ms,
  wf_doc d = true -> lookup (d_val d) p = Some (JObj w ms) -> ms <> [] -> Forall tight_m ms ->
  GetKeysValues (text d) p = Ok (keys ms, values ms).
Proof. exact get_keys_values. Qed.
Print Assumptions C15_get_keys_values_partial.

(** On every object: values are listed as [trimmed] shows them, and an empty object has the value "{" with up
    to one byte of its whitespace. *)
Theorem C15_get_values_exact : forall d p w ms,
  wf_doc d = true -> lookup (d_val d) p = Some (JObj w ms) ->
  GetValues (text d) p =
  if bytes_eqb (text d) (b "{}") then Err EEmpty
  else Ok (match ms with [] => [123 :: firstn 1 w] | _ => listed_values ms end).
Proof. exact get_values_exact. Qed.
Print Assumptions C15_get_values_exact.

Theorem C15_get_keys_values_exact : forall d p w ms,
  wf_doc d = true -> lookup (d_val d) p = Some (JObj w ms) ->
  GetKeysValues (text d) p =
  if bytes_eqb (text d) (b "{}") then Err EEmpty
  else Ok (keys ms, match ms with [] => [123 :: firstn 1 w] | _ => listed_values ms end).
Proof. exact get_keys_values_exact. Qed.
Print Assumptions C15_get_keys_values_exact.

Theorem C15_not_an_object : forall d p v,
  wf_doc d = true -> lookup (d_val d) p = Some v -> is_obj v = false ->
  GetKeys (text d) p = Err EObjectExpected /\ GetValues (text d) p = Err EObjectExpected /\
  GetKeysValues (text d) p = Err EObjectExpected.
Proof. exact get_kv_wrong. Qed.
Print Assumptions C15_not_an_object.

Theorem C15_listing_refuted :
  ~ C15_statement /\
  GetValues (b "{ }") [] = Ok [b "{ "] /\ GetKeysValues (b "{""a"":{}}") [b "a"] = Ok ([], [b "{"]) /\
  GetKeys (b "{}") [] = Err EEmpty /\ GetValues (b "{""a"":1 }") [] = Ok [b "1 "].
Proof.
  split; [|vm_compute; repeat split]. intro H.
  destruct (H (doc_of (b "{}")) [] [] [] eq_refl eq_refl) as [H1 _]. vm_compute in H1. discriminate H1.
Qed.
Print Assumptions C15_listing_refuted.

Example C15_example :
  let d := doc_of ex14 in
  wf_doc d = true /\ text d = ex14 /\
  (exists w ms, lookup (d_val d) [b "o"] = Some (JObj w ms) /\ ms <> [] /\ Forall tight_m ms) /\
  GetKeys ex14 [b "o"] = Ok [b "a"; b "q\"""; b "c"; b "z"] /\
  GetValues ex14 [b "o"] = Ok [b "[ 1,{""b"":2}]"; b "}, :"; b "{""d"" :3 }"; b "9"] /\
  GetKeysValues ex14 [b "o"] = Ok ([b "a"; b "q\"""; b "c"; b "z"], [b "[ 1,{""b"":2}]"; b "}, :"; b "{""d"" :3 }"; b "9"]) /\
  GetKeys ex14 [] = Ok [b "o"] /\ GetKeys (b " {} ") [] = Ok [] /\ GetKeys (b "{""o"":{""a"":1},""z"":2}") [b "o"] = Ok [b "a"] /\
  GetValues ex14 [b "o"; b "a"] = Err EObjectExpected.
Proof.
  vm_compute. repeat split. do 2 eexists. split; [reflexivity|]. split; [discriminate|].
  repeat (apply Forall_cons; [first [left; discriminate | right; left; reflexivity | right; right; vm_compute; lia]|]). constructor.
Qed.

(** Objects whose values are not trimmed and an empty object. *)
Definition ex_untrimmed : bytes := b "{""o"":{""a"":1  ,""c"" : 2  , ""d"":3 , ""f"":4 },""e"":{  }}".
Example C15_exact_example :
  let d := doc_of ex_untrimmed in
  wf_doc d = true /\ text d = ex_untrimmed /\
  (exists w ms, lookup (d_val d) [b "o"] = Some (JObj w ms) /\ listed_values ms = [b "1 "; b "2"; b "3 "; b "4 "] /\
     object_pairs ms = [(b "a", b "1  "); (b "c", b "2  "); (b "d", b "3 "); (b "f", b "4")]) /\
  lookup (d_val d) [b "e"] = Some (JObj (b "  ") []) /\
  GetValues ex_untrimmed [b "o"] = Ok [b "1 "; b "2"; b "3 "; b "4 "] /\
  GetKeysValues ex_untrimmed [b "e"] = Ok ([], [b "{ "]) /\
  IterateKeyValue ex_untrimmed (ex_cb2 (b "#") (b "f")) [b "o"] [] =
    IDone [(b "a", b "1  "); (b "c", b "2  "); (b "d", b "3 "); (b "f", b "4")] None /\
  IterateKeyValue ex_untrimmed (ex_cb2 (b "#") []) [b "e"] [] = IDone [(b "", b "{")] None.
Proof. vm_compute. repeat split. do 2 eexists. repeat split. Qed.

(** ** C16

    Full statement: false for a root array holding one one-byte element directly before its closing bracket, see
    [C16_length_refuted]; that is the only exception. *)
Definition C16_statement : Prop := forall d p v,
  wf_doc d = true -> lookup (d_val d) p = Some v -> container v = true -> Length (text d) p = Ok (size v).

Theorem C16_length_partial : forall d p v,
  wf_doc d = true -> lookup (d_val d) p = Some v -> container v = true -> p <> [] \/ lone v = false ->
  Length (text d) p = Ok (size v).
Proof. exact length_ok. Qed.
Print Assumptions C16_length_partial.

Theorem C16_length_exact : forall d p v,
  wf_doc d = true -> lookup (d_val d) p = Some v -> container v = true ->
  Length (text d) p = Ok (if match p with [] => lone v | _ => false end then 0%nat else size v).
Proof. exact length_spec. Qed.
Print Assumptions C16_length_exact.

(** A number or literal is not refused: it counts none or one, by the length of its text. *)
Theorem C16_length_of_a_number_or_literal : forall d p s, wf_doc d = true -> lookup (d_val d) p = Some (JScalar s) ->
  Length (text d) p =
    match p with
    | [] => if (length (text d) <? 2)%nat then Err (EBadJSON 0) else Ok (if (length s <=? 3)%nat then 0 else 1)%nat
    | _ => Ok (if (length s <=? 2)%nat then 0 else 1)%nat
    end.
Proof. exact length_scalar. Qed.
Print Assumptions C16_length_of_a_number_or_literal.
Example C16_number_example :
  let d := doc_of (b "[12,345]") in
  wf_doc d = true /\ lookup (d_val d) [b "1"] = Some (JScalar (b "345")) /\ Length (text d) [b "0"] = Ok 0%nat /\ Length (text d) [b "1"] = Ok 1%nat /\
  Length (b "7") [] = Err (EBadJSON 0) /\ Length (b " 7") [] = Ok 0%nat /\ Length (b "null") [] = Ok 1%nat.
Proof. vm_compute. repeat split. Qed.

Theorem C16_length_refuted : ~ C16_statement /\ Length (b "[5]") [] = Ok 0%nat /\ Length (b "[55]") [] = Ok 1%nat.
Proof.
  split; [|vm_compute; repeat split]. intro H.
  specialize (H (doc_of (b "[5]")) [] _ eq_refl eq_refl eq_refl). vm_compute in H. discriminate H.
Qed.
Print Assumptions C16_length_refuted.

Example C16_example :
  let d := doc_of ex13 in
  wf_doc d = true /\
  forallb (fun p => match lookup (d_val d) p with
                    | Some v => if container v then match Length ex13 p with Ok n => (n =? size v)%nat | _ => false end else true
                    | None => false
                    end) (all_paths (d_val d)) = true /\
  (exists v, lookup (d_val d) [b "k"] = Some v /\ container v = true /\ size v = 5%nat) /\
  Length ex13 [b "k"] = Ok 5%nat /\ Length ex13 [] = Ok 2%nat /\ Length ex13 [b "z"] = Ok 0%nat /\
  Length (b "{""a"":[5]}") [b "a"] = Ok 1%nat /\ Length (b "[5 ]") [] = Ok 1%nat /\ Length (b "[1,[2,3],""[,"",4]") [] = Ok 4%nat /\
  Length (b " { } ") [] = Ok 0%nat.
Proof. vm_compute. repeat split. eexists. repeat split. Qed.

(** ** C19

    Full statement: false below the root, where the byte after the container is tested instead of its last one,
    see [C19_get_map_refuted].  Proved for the root and for containers directly followed by a closing bracket of
    their own kind. *)
Definition C19_statement : Prop := forall d p,
  wf_doc d = true ->
  (forall w ms, lookup (d_val d) p = Some (JObj w ms) -> ms <> [] ->
     exists m, GetMap (text d) p = Ok (Some m) /\ map_of m (pairs ms)) /\
  (forall w els, lookup (d_val d) p = Some (JArr w els) -> els <> [] ->
     exists m, GetMap (text d) p = Ok (Some m) /\ map_of m (numbered (fun i => itoa (Z.of_nat i)) (items els))).

Theorem C19_get_map_object_partial : forall d p pre w ms post,
  wf_doc d = true -> focus (d_val d) p pre (JObj w ms) post -> ms <> [] -> Forall tight (removelast ms) ->
  closed_after d p (JObj w ms) post ->
  exists m, GetMap (text d) p = Ok (Some m) /\ map_of m (pairs ms).
Proof. exact get_map_obj. Qed.
Print Assumptions C19_get_map_object_partial.

Theorem C19_get_map_array_partial : forall d p pre w els post,
  wf_doc d = true -> focus (d_val d) p pre (JArr w els) post -> els <> [] ->
  closed_after d p (JArr w els) post ->
  exists m, GetMap (text d) p = Ok (Some m) /\ map_of m (numbered (fun i => itoa (Z.of_nat i)) (items els)).
Proof. exact get_map_arr. Qed.
Print Assumptions C19_get_map_array_partial.

(** On every container: nil for the two-byte documents, an error if the byte after the container is not a closing
    bracket of its kind, and otherwise the map of the pairs or items the iteration shows. *)
Theorem C19_get_map_exact : forall d p pre v post,
  wf_doc d = true -> focus (d_val d) p pre v post -> container v = true ->
  (text d = b "[]" \/ text d = b "{}" -> GetMap (text d) p = Ok None) /\
  (text d <> b "[]" -> text d <> b "{}" -> closed_after d p v post ->
     exists m, GetMap (text d) p = Ok (Some m) /\
       map_of m (match v with
                 | JObj w ms => object_pairs ms
                 | JArr w els => numbered (fun i => itoa (Z.of_nat i)) (array_items w els)
                 | _ => []
                 end)) /\
  (~ closed_after d p v post -> GetMap (text d) p = Err (EBadJSON (length (d_pre d ++ pre)))).
Proof. exact get_map_exact. Qed.
Print Assumptions C19_get_map_exact.

(** Any other value is an error. *)
Theorem C19_not_a_container : forall d p pre v post,
  wf_doc d = true -> focus (d_val d) p pre v post -> container v = false ->
  GetMap (text d) p = Err (EBadJSON (length (d_pre d ++ pre) + match p with [] => 0 | _ => if is_str v then 1 else 0 end)).
Proof. exact getmap_scalar. Qed.
Print Assumptions C19_not_a_container.

Theorem C19_get_map_refuted :
  ~ C19_statement /\ GetMap (b "{""a"":{""b"":1},""c"":2}") [b "a"] = Err (EBadJSON 5).
Proof.
  split; [|reflexivity]. intro H.
  destruct (H (doc_of (b "{""a"":{""b"":1},""c"":2}")) [b "a"] eq_refl) as [H1 _].
  destruct (H1 _ _ eq_refl ltac:(discriminate)) as (m & Hm & _). vm_compute in Hm. discriminate Hm.
Qed.
Print Assumptions C19_get_map_refuted.

(** Both cases at once: one container is followed by its own closing bracket, the other is not. *)
Definition ex19 : bytes := b "{""o"":{""a"":1  ,""c"":2},""s"":""x"",""e"":{  }}".
Example C19_exact_example :
  let d := doc_of ex19 in
  wf_doc d = true /\ text d = ex19 /\
  (exists pre w ms post, focus (d_val d) [b "o"] pre (JObj w ms) post /\ ~ closed_after d [b "o"] (JObj w ms) post) /\
  (exists pre w post, focus (d_val d) [b "e"] pre (JObj w []) post /\ closed_after d [b "e"] (JObj w []) post) /\
  (exists pre s post, focus (d_val d) [b "s"] pre (JString s) post) /\
  GetMap ex19 [b "o"] = Err (EBadJSON 5) /\ GetMap ex19 [b "e"] = Ok (Some [(b "", b "{")]) /\
  GetMap ex19 [b "s"] = Err (EBadJSON 26) /\
  GetMap (b "{""o"":{""a"":1  ,""c"":2}}") [b "o"] = Ok (Some [(b "a", b "1  "); (b "c", b "2")]).
Proof.
  intro d. split; [vm_compute; reflexivity|]. split; [vm_compute; reflexivity|]. split; [|split; [|split; [|vm_compute; repeat split]]].
  - eexists _, _, _, _. split; [apply focus_at_sound; vm_compute; reflexivity|].
    intros [H|[r H]]; [discriminate|]. vm_compute in H. discriminate.
  - eexists _, _, _. split; [apply focus_at_sound; vm_compute; reflexivity|]. right. eexists. vm_compute. reflexivity.
  - eexists _, _, _. apply focus_at_sound. vm_compute. reflexivity.
Qed.

Example C19_example :
  let d := doc_of ex14 in
  (exists pre w ms post, focus (d_val d) [b "o"] pre (JObj w ms) post /\ ms <> [] /\ Forall tight (removelast ms) /\
     closed_after d [b "o"] (JObj w ms) post) /\
  GetMap ex14 [b "o"] = Ok (Some [(b "a", b "[ 1,{""b"":2}]"); (b "q\""", b "}, :"); (b "c", b "{""d"" :3 }"); (b "z", b "9")]) /\
  GetMap (b "{""x"":1,""y"":2,""x"":""3""}") [] = Ok (Some [(b "x", b "3"); (b "y", b "2")]) /\
  map_of [(b "x", b "3"); (b "y", b "2")] (pairs [Mem [] (b "x") [] [] (JScalar (b "1")) []; Mem [] (b "y") [] [] (JScalar (b "2")) [];
                                                  Mem [] (b "x") [] [] (JString (b "3")) []]) /\
  GetMap (b "[[1, ""a""]]") [b "0"] = Ok (Some [(b "0", b "1"); (b "1", b "a")]) /\
  GetMap (b " [""p"",1,{}] ") [] = Ok (Some [(b "0", b "p"); (b "1", b "1"); (b "2", b "{}")]).
Proof.
  intro d. split.
  - eexists _, _, _, _. split; [apply focus_at_sound; vm_compute; reflexivity|]. split; [discriminate|].
    split; [|right; eexists; vm_compute; reflexivity].
    repeat (apply Forall_cons; [first [left; reflexivity | right; vm_compute; lia]|]). constructor.
  - split; [reflexivity|]. split; [reflexivity|]. split; [|vm_compute; repeat split].
    apply (put_all_map_of (pairs [Mem [] (b "x") [] [] (JScalar (b "1")) []; Mem [] (b "y") [] [] (JScalar (b "2")) [];
                                                  Mem [] (b "x") [] [] (JString (b "3")) []])).
Qed.

(** ** C38: for every byte sequence, all keys, all paths *)
Theorem C38_get_all_results : forall json ks path vs,
  GetAll json ks path = Ok vs <-> Forall2 (fun k v => Get json (path ++ [k]) = Ok v) ks vs.
Proof. exact get_all_ok. Qed.
Print Assumptions C38_get_all_results.

Theorem C38_get_all_error : forall json ks path e,
  GetAll json ks path = Err e <->
  exists ks1 k ks2 vs, ks = ks1 ++ k :: ks2 /\ Forall2 (fun k v => Get json (path ++ [k]) = Ok v) ks1 vs /\
                       Get json (path ++ [k]) = Err e.
Proof. exact get_all_err. Qed.
Print Assumptions C38_get_all_error.

Theorem C38_get_all_map_results : forall json ks path vs,
  GetAll json ks path = Ok vs -> exists m, GetAllMap json ks path = Ok m /\ map_of m (combine ks vs).
Proof. exact get_all_map_ok. Qed.
Print Assumptions C38_get_all_map_results.

Theorem C38_get_all_map_error : forall json ks path e,
  GetAll json ks path = Err e <-> GetAllMap json ks path = Err e.
Proof. exact get_all_map_err. Qed.
Print Assumptions C38_get_all_map_error.

Example C38_example :
  GetAll ex14 [b "z"; b "q\"""; b "z"] [b "o"] = Ok [b "9"; b "}, :"; b "9"] /\
  GetAllMap ex14 [b "z"; b "q\"""; b "z"] [b "o"] = Ok [(b "z", b "9"); (b "q\""", b "}, :")] /\
  GetAll ex14 [b "z"; b "nokey"; b "other"] [b "o"] = Err (EKeyNotFound (b "nokey")) /\
  GetAllMap ex14 [b "z"; b "nokey"; b "other"] [b "o"] = Err (EKeyNotFound (b "nokey")) /\
  GetAll ex14 [] [b "none"] = Ok [].
Proof. vm_compute. repeat split. Qed.
