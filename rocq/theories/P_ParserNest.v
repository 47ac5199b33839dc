(** Property C61: what a Parser answers after an update, also where it has drifted from its text. *)
From Coq Require Import String.
From Verif Require Import GoStd Json Spec Core Focus Errors Api Parse Iter SpecParser Parser SpecNest ParserNest ParserNil.

Local Open Scope N_scope.

(** ** C61

    A caller expects that after the call the members of a container
    are found where it was put.  That fails ([C61_where_put_refuted]); the theorems say where they are found instead, for
    every container, and what all other places answer. *)
Definition C61_where_put_statement : Prop := forall d p v q p' r u, wf_doc d = true -> Parse (text d) = Ok p -> wf v = true -> container v = true ->
  P_Set p (render v) q = PRet p' None -> lookup v r = Some u -> straight v r = true -> P_Get p' (q ++ r) = Ok (bare u).

(** *** Set, on any parser *)
Theorem C61_set_container : forall p v q p', wf v = true -> container v = true -> P_Set p (render v) q = PRet p' None ->
  P_Get p' q = Ok (render v) /\ sunk p' q v /\ doubled p' q v.
Proof. exact set_nested. Qed.
Print Assumptions C61_set_container.
Theorem C61_set_plain : forall p v q p', opens v = false -> P_Set p v q = PRet p' None ->
  P_Get p' q = cleanValue v /\ forall x r, P_Get p' (q ++ x :: r) = P_Get p (q ++ x :: r).
Proof. exact set_plain. Qed.
Print Assumptions C61_set_plain.
Theorem C61_set_above : forall p v a x r p', a <> [] -> P_Set p v (a ++ x :: r) = PRet p' None -> asked_again p' a.
Proof. exact set_above. Qed.
Print Assumptions C61_set_above.
Theorem C61_set_elsewhere : forall p v q p' r, P_Set p v q = PRet p' None -> parted q r -> P_Get p' r = P_Get p r.
Proof. exact set_elsewhere. Qed.
Print Assumptions C61_set_elsewhere.

(** *** AddKeyValue, on any parser; under a key of one byte nothing is found *)
Theorem C61_add_key_value_container : forall p k v q p', wf v = true -> container v = true -> P_Get p (q ++ [k]) = Err (EKeyNotFound k) ->
  P_AddKeyValue p k (render v) q = PRet p' None ->
  P_Get p' (q ++ [k]) = Ok (render v) /\ if (2 <=? length k)%nat then sunk p' (q ++ [k]) v /\ doubled p' (q ++ [k]) v
  else barren p' (q ++ [k]) /\ P_GetNew p' (q ++ [k]) = Ok (render v).
Proof. exact addkv_nested. Qed.
Print Assumptions C61_add_key_value_container.
Theorem C61_add_key_value_plain : forall p k v q p', opens v = false -> P_Get p (q ++ [k]) = Err (EKeyNotFound k) -> P_AddKeyValue p k v q = PRet p' None ->
  P_Get p' (q ++ [k]) = cleanValue v /\ barren p' (q ++ [k]).
Proof. exact addkv_plain. Qed.
Print Assumptions C61_add_key_value_plain.
Theorem C61_add_key_value_above : forall p k v a t p', a <> [] -> P_AddKeyValue p k v (a ++ t) = PRet p' None -> asked_again p' a.
Proof. exact addkv_above. Qed.
Print Assumptions C61_add_key_value_above.
Theorem C61_add_key_value_elsewhere : forall p k v q p' r, P_AddKeyValue p k v q = PRet p' None -> parted (q ++ [k]) r -> P_Get p' r = P_Get p r.
Proof. exact addkv_elsewhere. Qed.
Print Assumptions C61_add_key_value_elsewhere.

(** A nil value, on any parser: the node holds nothing, *)
Theorem C61_add_key_value_nil : forall p k q p', P_Get p (q ++ [k]) = Err (EKeyNotFound k) -> P_AddKeyValue_nil p k q = PRet p' None ->
  P_Get p' (q ++ [k]) = Ok [] /\ barren p' (q ++ [k]).
Proof. exact nil_answer. Qed.
Print Assumptions C61_add_key_value_nil.
(** while the text has null. *)
Theorem C61_add_key_value_nil_drifts : forall d p q k w ms p', wf_doc d = true -> p_json p = text d -> q <> [] -> str_ok k = true ->
  lookup (d_val d) q = Some (JObj w ms) -> P_Get p (q ++ [k]) = Err (EKeyNotFound k) -> P_AddKeyValue_nil p k q = PRet p' None ->
  P_Get p' (q ++ [k]) = Ok [] /\ Get (p_json p') (q ++ [k]) = Ok (b "null").
Proof. exact nil_drifts. Qed.
Print Assumptions C61_add_key_value_nil_drifts.
Example C61_nil_example : exists d p p', wf_doc d = true /\ text d = b "{""a"": {} }" /\ Parse (text d) = Ok p /\ p_json p = text d /\
  lookup (d_val d) [b "a"] = Some (JObj [] []) /\ P_Get p [b "a"; b "k"] = Err (EKeyNotFound (b "k")) /\
  P_AddKeyValue_nil p (b "k") [b "a"] = PRet p' None /\ P_Get p' [b "a"; b "k"] = Ok [] /\ p_json p' = b "{""a"": {""k"":null} }".
Proof. exists (doc_of (b "{""a"": {} }")). eexists _, _. do 8 (split; [vm_compute; reflexivity|]). vm_compute. reflexivity. Qed.

(** *** Add; after a container the outermost value on the path is the old one *)
Theorem C61_add_container : forall d p v q w els p', wf_doc d = true -> Parse (text d) = Ok p -> lookup (d_val d) q = Some (JArr w els) ->
  straight (d_val d) q = true -> lonely (JArr w els) = false -> wf v = true -> container v = true -> P_Add p (render v) q = PRet p' None ->
  P_Get p' (q ++ [itoa (Z.of_nat (length els))]) = Ok (render v) /\ sunk p' (q ++ [itoa (Z.of_nat (length els))]) v /\
  doubled p' (q ++ [itoa (Z.of_nat (length els))]) v.
Proof. exact add_parsed. Qed.
Print Assumptions C61_add_container.
Theorem C61_add_plain : forall d p v q w els p', wf_doc d = true -> Parse (text d) = Ok p -> lookup (d_val d) q = Some (JArr w els) ->
  straight (d_val d) q = true -> lonely (JArr w els) = false -> opens v = false -> P_Add p v q = PRet p' None ->
  P_Get p' (q ++ [itoa (Z.of_nat (length els))]) = cleanValue v /\ barren p' (q ++ [itoa (Z.of_nat (length els))]).
Proof. exact add_plain. Qed.
Print Assumptions C61_add_plain.
Theorem C61_add_above : forall p v q p', P_Add p v q = PRet p' None ->
  if opens v && (2 <=? length v)%nat
  then (forall a t, q = a ++ t -> (2 <= length a)%nat -> asked_again p' a) /\ (forall x t, q = x :: t -> P_Get p' [x] = P_Get p [x])
  else forall a t, q = a ++ t -> a <> [] -> asked_again p' a.
Proof. exact add_above. Qed.
Print Assumptions C61_add_above.
Theorem C61_add_elsewhere : forall d p v q w els p' r, wf_doc d = true -> Parse (text d) = Ok p -> lookup (d_val d) q = Some (JArr w els) ->
  straight (d_val d) q = true -> lonely (JArr w els) = false -> P_Add p v q = PRet p' None ->
  parted (q ++ [itoa (Z.of_nat (length els))]) r -> P_Get p' r = P_Get p r.
Proof. exact add_parsed_elsewhere. Qed.
Print Assumptions C61_add_elsewhere.

(** *** Insert; at the root a container itself is found empty, and GetNew panics *)
Theorem C61_insert_container : forall d p z v q w els p', wf_doc d = true -> Parse (text d) = Ok p -> lookup (d_val d) q = Some (JArr w els) ->
  straight (d_val d) q = true -> lonely (JArr w els) = false -> wf v = true -> container v = true -> P_Insert p z (render v) q = PRet p' None ->
  P_Get p' (q ++ [itoa z]) = Ok (match q with [] => [] | _ => render v end) /\ sunk p' (q ++ [itoa z]) v /\
  match q with [] => P_GetNew p' [itoa z] = Panic /\ P_GetNew p' [] = Panic | _ => doubled p' (q ++ [itoa z]) v end.
Proof. exact insert_parsed. Qed.
Print Assumptions C61_insert_container.
Theorem C61_insert_plain : forall d p z v q w els p', wf_doc d = true -> Parse (text d) = Ok p -> lookup (d_val d) q = Some (JArr w els) ->
  straight (d_val d) q = true -> lonely (JArr w els) = false -> opens v = false -> P_Insert p z v q = PRet p' None ->
  P_Get p' (q ++ [itoa z]) = cleanValue v /\ barren p' (q ++ [itoa z]).
Proof. exact insert_plain. Qed.
Print Assumptions C61_insert_plain.
Theorem C61_insert_above : forall p z v a t p', a <> [] -> P_Insert p z v (a ++ t) = PRet p' None -> asked_again p' a.
Proof. exact insert_above. Qed.
Print Assumptions C61_insert_above.
Theorem C61_insert_elsewhere : forall d p z v q w els p', wf_doc d = true -> Parse (text d) = Ok p -> lookup (d_val d) q = Some (JArr w els) ->
  straight (d_val d) q = true -> lonely (JArr w els) = false -> P_Insert p z v q = PRet p' None ->
  (0 <= z < Z.of_nat (length els))%Z /\
  (forall i r, (i < length els)%nat -> P_Get p' (q ++ itoa (Z.of_nat (if (z <=? Z.of_nat i)%Z then S i else i)) :: r) = P_Get p (q ++ itoa (Z.of_nat i) :: r)) /\
  (forall r, parted q r -> P_Get p' r = P_Get p r).
Proof. exact insert_elsewhere. Qed.
Print Assumptions C61_insert_elsewhere.

(** *** Delete and SetKey, on any parser; the elements behind a deleted one keep their numbers *)
Theorem C61_delete : forall p q x p', P_Delete p (q ++ [x]) = PRet p' None ->
  (forall r, P_Get p' (q ++ x :: r) = Err (EKeyNotFound x)) /\ (forall r, parted (q ++ [x]) r -> P_Get p' r = P_Get p r) /\
  (forall a t, q = a ++ t -> a <> [] -> asked_again p' a).
Proof. exact delete_tree. Qed.
Print Assumptions C61_delete.
Theorem C61_set_key : forall p k q x p', P_SetKey p k (q ++ [x]) = PRet p' None ->
  (forall r, P_Get p' (q ++ k :: r) = P_Get p (q ++ x :: r)) /\
  (forall r, parted (q ++ [x]) r -> parted (q ++ [k]) r -> P_Get p' r = P_Get p r).
Proof. exact setkey_tree. Qed.
Print Assumptions C61_set_key.

Definition ex61 : doc := doc_of (b "{""a"":{""l"":[1,2,3],""m"":{""k"":5}},""z"":7}").
Definition ex61_val : jv := JArr [] [Elem [] (JScalar (b "8")) []; Elem (b " ") (JString (b "x")) []].
Definition ex61_after (f : parser -> pres) : option parser :=
  match Parse (text ex61) with Ok p => match f p with PRet p' None => Some p' | _ => None end | _ => None end.
Definition ex61_get (o : option parser) (q : list bytes) : res bytes := match o with Some p => P_Get p q | None => Panic end.
Definition ex61_new (o : option parser) (q : list bytes) : res bytes := match o with Some p => P_GetNew p q | None => Err ENullKey end.

Theorem C61_where_put_refuted : ~ C61_where_put_statement.
Proof.
  intro H. specialize (H ex61 _ ex61_val [b "z"] _ [b "1"] (JString (b "x")) eq_refl eq_refl eq_refl eq_refl eq_refl eq_refl eq_refl). vm_compute in H. discriminate H.
Qed.
Print Assumptions C61_where_put_refuted.

Example C61_example :
  wf_doc ex61 = true /\ wf ex61_val = true /\ container ex61_val = true /\ render ex61_val = b "[8, ""x""]" /\
  lookup (d_val ex61) [b "a"; b "l"] = Some (JArr [] [Elem [] (JScalar (b "1")) []; Elem [] (JScalar (b "2")) []; Elem [] (JScalar (b "3")) []]) /\
  straight (d_val ex61) [b "a"; b "l"] = true /\ parted [b "a"; b "m"; b "k"] [b "a"; b "l"; b "1"] /\
  (let o := ex61_after (fun p => P_Set p (render ex61_val) [b "a"; b "m"; b "k"]) in
   map (ex61_get o) [[b "a"; b "m"; b "k"; b "0"; b "1"]; [b "a"; b "m"; b "k"; b "1"]; [b "a"; b "m"]; [b "a"; b "l"; b "1"]] =
   [Ok (b "x"); Err (EKeyNotFound (b "1")); Ok (b "{""k"":[8, ""x""]}"); Ok (b "2")]) /\
  (let o := ex61_after (fun p => P_Set p (b "9") [b "a"; b "m"]) in
   map (ex61_get o) [[b "a"; b "m"]; [b "a"; b "m"; b "k"]] = [Ok (b "9"); Ok (b "5")]) /\
  (let o := ex61_after (fun p => P_AddKeyValue p (b "new") (render ex61_val) [b "a"]) in
   map (ex61_get o) [[b "a"; b "new"; b "0"; b "0"]; [b "a"; b "new"; b "0"]; [b "a"; b "new"; b "1"]] = [Ok (b "8"); Ok (b "[8, ""x""]"); Err (EKeyNotFound (b "1"))]) /\
  (let o := ex61_after (fun p => P_AddKeyValue p (b "n") (render ex61_val) []) in
   map (ex61_get o) [[b "n"]; [b "n"; b "0"]; [b "z"]] = [Ok (b "[8, ""x""]"); Err (EKeyNotFound (b "0")); Ok (b "7")]) /\
  (let o := ex61_after (fun p => P_Add p (render ex61_val) [b "a"; b "l"]) in
   map (ex61_get o) [[b "a"; b "l"; b "3"; b "0"; b "0"]; [b "a"; b "l"]; [b "a"]] =
   [Ok (b "8"); Ok (b "[1,2,3,[8, ""x""]]"); Ok (b "{""l"":[1,2,3],""m"":{""k"":5}}")]) /\
  (let o := ex61_after (fun p => P_Insert p 1 (render ex61_val) [b "a"; b "l"]) in
   map (ex61_get o) [[b "a"; b "l"; b "1"]; [b "a"; b "l"; b "1"; b "0"; b "1"]; [b "a"; b "l"; b "2"]; [b "a"; b "l"; b "3"]; [b "a"; b "l"]] =
   [Ok (b "[8, ""x""]"); Ok (b "x"); Ok (b "2"); Ok (b "3"); Ok (b "[1,[8, ""x""],2,3]")]) /\
  (let o := ex61_after (fun p => P_Delete p [b "a"; b "l"; b "0"]) in
   map (ex61_get o) [[b "a"; b "l"; b "0"]; [b "a"; b "l"; b "1"]; [b "a"; b "l"; b "2"]; [b "a"; b "l"]] =
   [Err (EKeyNotFound (b "0")); Ok (b "2"); Ok (b "3"); Ok (b "[2,3]")]) /\
  (let o := ex61_after (fun p => P_SetKey p (b "mm") [b "a"; b "m"]) in
   map (ex61_get o) [[b "a"; b "m"]; [b "a"; b "mm"; b "k"]; [b "a"; b "l"; b "0"]] = [Err (EKeyNotFound (b "m")); Ok (b "5"); Ok (b "1")]) /\
  (let o := ex61_after (fun p => P_Set p (render ex61_val) [b "a"; b "m"; b "k"]) in
   map (ex61_new o) [[b "a"; b "m"; b "k"]; [b "a"; b "m"]] = [Ok (b "[[8, ""x""]]"); Ok (b "{""k"":[[8, ""x""]]}")]) /\
  (let o := ex61_after (fun p => P_Set p (b "{""u"":[1,2]}") [b "z"]) in
   map (ex61_new o) [[b "z"]] = [Ok (b "{""0"":{""u"":[1,2]}}")]) /\
  (let o := ex61_after (fun p => P_AddKeyValue p (b "n") (b " ""s"" ") [b "a"]) in
   map (ex61_get o) [[b "a"; b "n"]; [b "a"; b "n"; b "0"]] = [Ok (b "s"); Err (EKeyNotFound (b "0"))]) /\
  (let o := ex61_after (fun p => P_Add p (b "44") [b "a"; b "l"]) in map (ex61_get o) [[b "a"; b "l"; b "3"]; [b "a"]] = [Ok (b "44"); Ok (b "{""l"":[1,2,3,44],""m"":{""k"":5}}")]) /\
  (let o := ex61_after (fun p => P_Insert p 2 (b "44") [b "a"; b "l"]) in map (ex61_get o) [[b "a"; b "l"; b "2"]; [b "a"; b "l"; b "3"]] = [Ok (b "44"); Ok (b "3")]) /\
  (let o := match Parse (b "[1,2]") with Ok p => match P_Insert p 1 (render ex61_val) [] with PRet p' None => Some p' | _ => None end | _ => None end in
   map (ex61_new o) [[b "1"]; []; [b "0"]] = [Panic; Panic; Ok (b "1")] /\ map (ex61_get o) [[b "1"]; [b "1"; b "0"]; [b "2"]] = [Ok []; Ok (b "[8, ""x""]"); Ok (b "2")]).
Proof. repeat split; try (vm_compute; reflexivity). exists [b "a"], (b "m"), (b "l"), [b "k"], [b "1"]. repeat split. discriminate. Qed.
