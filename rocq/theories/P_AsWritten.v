(** Property C72: the functions as written in Go meet the specification of documents. *)
From Coq Require Import String.
From Verif Require Import GoStd Json Spec SpecIter SpecList SpecWalk SpecParser Parse Focus Domains Errors Core Api Ops GoLang SpecPtr AsWritten.
From Verif Require SpecFormat SpecPanic SpecParserOps ListGoProofs AsWrittenProofs.
From Verif Require Import SplitGo UpdateGo IterGo ListGo FormatGo WalkGo Pointers ParserGo.

Local Open Scope N_scope.

(** ** C72

    Left of each equation is a program of statements that follows the Go function (C62 to C71); right of it is what the
    specification says of the document.  No model of the function stands between the two.  [eventually]: with every bound on
    the turns of a loop from some bound on, so the loop comes to its end.  [octets]: the text is made of bytes. *)
Theorem C72_get : forall d p v, wf_doc d = true -> octets (text d) -> p <> [] -> lookup (d_val d) p = Some v ->
  eventually (fun fuel => Get_go fuel (text d) p = Ret (bare v, None)).
Proof. exact AsWrittenProofs.get_written. Qed.
Print Assumptions C72_get.

Theorem C72_get_absent_partial : forall d q x rest, wf_doc d = true -> octets (text d) -> seen_absent d q x ->
  eventually (fun fuel => Get_go fuel (text d) (q ++ x :: rest) = Ret ([], Some (EKeyNotFound x))).
Proof. exact AsWrittenProofs.get_absent_written. Qed.
Print Assumptions C72_get_absent_partial.

(** *** The seven updates: one that applies, one that is refused, and any sequence of them *)
Theorem C72_update_partial : forall d o c', wf_doc d = true -> octets (text d) -> legal d o -> meaning o (content (d_val d)) = Some c' ->
  exists d', matches d d' c' /\ eventually (fun fuel => call_go fuel o (text d) = Ret (text d', None)).
Proof. exact AsWrittenProofs.call_written. Qed.
Print Assumptions C72_update_partial.

Theorem C72_update_refused_partial : forall d o, wf_doc d = true -> octets (text d) -> rejected d o ->
  exists e, eventually (fun fuel => call_go fuel o (text d) = Ret (text d, Some e)).
Proof. exact AsWrittenProofs.refused_written. Qed.
Print Assumptions C72_update_refused_partial.

Theorem C72_history_partial : forall d ops c', wf_doc d = true -> octets (text d) -> Forall op_octets ops -> lawful d ops c' ->
  exists d', wf_doc d' = true /\ content (d_val d') = c' /\ eventually (fun fuel => run_go fuel ops (text d) = Ret (text d')).
Proof. exact AsWrittenProofs.history_written. Qed.
Print Assumptions C72_history_partial.

(** On any text, document or not, an update comes to an end. *)
Theorem C72_update_ends : forall o json, octets json -> eventually (fun fuel => call_go fuel o json <> Out).
Proof. exact AsWrittenProofs.call_ends. Qed.
Print Assumptions C72_update_ends.

(** *** Iteration and listings *)
Theorem C72_iterate_array_partial : forall (St : Type) d p w els (cb : St -> bytes -> St * (bool * option err)) s,
  wf_doc d = true -> octets (text d) -> lookup (d_val d) p = Some (JArr w els) -> els <> [] ->
  eventually (fun fuel => IterateArray_go fuel (text d) cb p s = Ret (visit cb (items els) s)).
Proof. exact (@AsWrittenProofs.array_written). Qed.
Print Assumptions C72_iterate_array_partial.

Theorem C72_iterate_key_value_exact : forall (St : Type) d p w ms (cb : St -> bytes -> bytes -> St * (bool * option err)) s,
  wf_doc d = true -> octets (text d) -> lookup (d_val d) p = Some (JObj w ms) -> text d <> b "{}" ->
  eventually (fun fuel => IterateKeyValue_go fuel (text d) cb p s =
    Ret (fst (visit (uncurry2 cb) (object_pairs ms) s), snd (visit (uncurry2 cb) (removelast (object_pairs ms)) s))).
Proof. exact (@AsWrittenProofs.pairs_written). Qed.
Print Assumptions C72_iterate_key_value_exact.

Theorem C72_listings_exact : forall d p w ms, wf_doc d = true -> octets (text d) -> lookup (d_val d) p = Some (JObj w ms) -> ms <> [] ->
  eventually (fun fuel => GetKeys_go fuel (text d) p = Ret (keys ms, None) /\ GetValues_go fuel (text d) p = Ret (listed_values ms, None)).
Proof. exact AsWrittenProofs.listings_written. Qed.
Print Assumptions C72_listings_exact.

Theorem C72_length_partial : forall d p v, wf_doc d = true -> octets (text d) -> lookup (d_val d) p = Some v -> container v = true -> p <> [] ->
  eventually (fun fuel => Length_go fuel (text d) p = Ret (Z.of_nat (size v), None)).
Proof. exact AsWrittenProofs.length_written. Qed.
Print Assumptions C72_length_partial.

(** A root array holding one one-byte element right before its bracket counts none; everything else its size. *)
Theorem C72_length_exact : forall d p v, wf_doc d = true -> octets (text d) -> lookup (d_val d) p = Some v -> container v = true ->
  eventually (fun fuel => Length_go fuel (text d) p = Ret (if match p with [] => lone v | _ => false end then 0%Z else Z.of_nat (size v), None)).
Proof. exact AsWrittenProofs.length_exact_written. Qed.
Print Assumptions C72_length_exact.
Theorem C72_length_of_a_number_or_literal : forall d p s, wf_doc d = true -> octets (text d) -> lookup (d_val d) p = Some (JScalar s) ->
  eventually (fun fuel => Length_go fuel (text d) p =
    match p with
    | [] => if (length (text d) <? 2)%nat then Ret ((-1)%Z, Some (EBadJSON 0)) else Ret (if (length s <=? 3)%nat then 0%Z else 1%Z, None)
    | _ => Ret (if (length s <=? 2)%nat then 0%Z else 1%Z, None)
    end).
Proof. exact AsWrittenProofs.length_scalar_written. Qed.
Print Assumptions C72_length_of_a_number_or_literal.
(** The full statement, the root included: false. *)
Definition C72_length_statement : Prop := forall d p v, wf_doc d = true -> octets (text d) -> lookup (d_val d) p = Some v -> container v = true ->
  eventually (fun fuel => Length_go fuel (text d) p = Ret (Z.of_nat (size v), None)).
Theorem C72_length_refuted : ~ C72_length_statement /\ Length_go 40 (b "[5]") [] = Ret (0%Z, None).
Proof.
  split; [|vm_compute; reflexivity]. intro H. destruct (H (doc_of (b "[5]")) [] _ eq_refl ltac:(repeat constructor) eq_refl eq_refl) as [n Hn].
  specialize (Hn (n + 40)%nat (Nat.le_add_r n 40)). rewrite ListGoProofs.Length_go_spec in Hn; [|repeat constructor|apply Nat.lt_lt_add_l; vm_compute; repeat constructor..].
  vm_compute in Hn. discriminate Hn.
Qed.
Print Assumptions C72_length_refuted.
Theorem C72_is_empty_exact : forall d p v, wf_doc d = true -> octets (text d) -> lookup (d_val d) p = Some v -> container v = true ->
  eventually (fun fuel => IsEmpty_go fuel (text d) p = Ret ((size v =? 0)%nat || lone v, None)).
Proof. exact AsWrittenProofs.empties_written. Qed.
Print Assumptions C72_is_empty_exact.

(** Elements one by one as their texts, integers and floats; the first that is none is named in the error. *)
Theorem C72_array_getters_exact : forall d p w els, wf_doc d = true -> octets (text d) -> lookup (d_val d) p = Some (JArr w els) -> whole d p ->
  eventually (fun fuel =>
    GetStringArray_go fuel (text d) p =
      match w, els with
      | [], [] => Ret ([], None)
      | _, _ => match SpecList.listing w els with Some ts => Ret (ts, None) | None => Pan end
      end /\
    GetIntArray_go fuel (text d) p =
      match SpecList.listing w els with
      | None => Pan
      | Some ts => match conversions atoi ts with (l, None) => Ret (l, None) | (_, Some t) => Ret ([], Some (EIntegerParse t)) end
      end /\
    forall (F : Type) (pf : bytes -> option F), GetFloatArray_go fuel pf (text d) p =
      match SpecList.listing w els with
      | None => Pan
      | Some ts => match conversions pf ts with (l, None) => Ret (l, None) | (_, Some t) => Ret ([], Some (EFloatParse t)) end
      end).
Proof. exact AsWrittenProofs.arrays_written. Qed.
Print Assumptions C72_array_getters_exact.

Theorem C72_types : forall d p v, wf_doc d = true -> octets (text d) -> lookup (d_val d) p = Some v ->
  eventually (fun fuel => IsArray_go fuel (text d) p = Ret (Domains.is_arr v, None) /\ IsValue_go fuel (text d) p = Ret (negb (container v), None)).
Proof. exact AsWrittenProofs.types_written. Qed.
Print Assumptions C72_types.

(** GetType names the kind and IsObject says whether the value is a container at all (it takes arrays for objects). *)
Theorem C72_kinds_partial : forall (pf : bytes -> bool) d p v, wf_doc d = true -> octets (text d) -> lookup (d_val d) p = Some v ->
  match v with JScalar s => s = b "true" \/ s = b "false" \/ s = b "null" \/ pf s = true | _ => True end ->
  p <> [] \/ is_str v = true \/ container v = true \/ (d_pre d = [] /\ d_post d = []) ->
  eventually (fun fuel => GetType_go fuel (text d) p pf = Ret (match v with
    | JArr _ _ => b "array" | JObj _ _ => b "object" | JString _ => b "string"
    | JScalar s => if bytes_eqb s (b "true") || bytes_eqb s (b "false") then b "boolean" else if bytes_eqb s (b "null") then b "null" else b "number"
    end, None)) /\
  eventually (fun fuel => IsObject_go fuel (text d) p = Ret (container v, None)).
Proof. exact AsWrittenProofs.kinds_written. Qed.
Print Assumptions C72_kinds_partial.
Theorem C72_get_type_exact : forall (pf : bytes -> bool) d p v, wf_doc d = true -> octets (text d) -> lookup (d_val d) p = Some v ->
  eventually (fun fuel => GetType_go fuel (text d) p pf = Ret (match v with
    | JArr _ _ => b "array" | JObj _ _ => b "object" | JString _ => b "string"
    | JScalar s => let t := match p with [] => text d | _ => s end in
        if bytes_eqb t (b "true") || bytes_eqb t (b "false") then b "boolean"
        else if bytes_eqb t (b "null") then b "null"
        else match atoi t with Some _ => b "number" | None => if pf t then b "number" else b "string" end
    end, None)).
Proof. exact AsWrittenProofs.get_type_written. Qed.
Print Assumptions C72_get_type_exact.
(** GetMap: the pairs of the object, the numbered elements of the array, and the fault where the document ends short, exactly. *)
Theorem C72_map_exact : forall d p pre v post, wf_doc d = true -> octets (text d) -> focus (d_val d) p pre v post -> container v = true ->
  (text d = b "[]" \/ text d = b "{}" -> eventually (fun fuel => GetMap_go fuel (text d) p = Ret (None, None))) /\
  (text d <> b "[]" -> text d <> b "{}" -> closed_after d p v post ->
     exists m, eventually (fun fuel => GetMap_go fuel (text d) p = Ret (Some m, None)) /\
       map_of m (match v with
                 | JObj w ms => object_pairs ms
                 | JArr w els => numbered (fun i => itoa (Z.of_nat i)) (array_items w els)
                 | _ => []
                 end)) /\
  (~ closed_after d p v post -> eventually (fun fuel => GetMap_go fuel (text d) p = Ret (None, Some (EBadJSON (length (d_pre d ++ pre)))))).
Proof. exact AsWrittenProofs.map_written. Qed.
Print Assumptions C72_map_exact.
Theorem C72_walk_partial : forall (St : Type) pf d (cb : St -> bytes -> bytes -> list bytes -> St * (bool * option err)) s,
  wf_doc d = true -> octets (text d) -> fits (text d) -> unique_keys SpecWalk.dec (d_val d) ->
  (forall p, In (p, []) (objects SpecWalk.dec [] (d_val d)) -> seen_absent d p []) -> text d <> b "{}" /\ text d <> b "[]" ->
  eventually (fun fuel => Walk_go pf fuel (text d) cb (S (S (length (text d)))) s = Ret (SpecWalk.walked SpecWalk.dec (SpecWalk.shown_leaf d) EEmptyArray cb [] (d_val d) s)).
Proof. exact (@AsWrittenProofs.walk_written). Qed.
Print Assumptions C72_walk_partial.

(** *** The formatters *)
Theorem C72_flatten : forall d, wf_doc d = true -> eventually (fun fuel => Flatten_go fuel (text d) = Ret (render (SpecFormat.strip (d_val d)))).
Proof. exact AsWrittenProofs.flatten_written. Qed.
Print Assumptions C72_flatten.

Theorem C72_indent_partial : forall d, wf_doc d = true -> SpecFormat.calm (d_val d) = true -> (forall s, d_val d <> JString s) ->
  eventually (fun fuel => Indent_go fuel (text d) = Ret (render (SpecFormat.pretty 0 (d_val d)))).
Proof. exact AsWrittenProofs.indent_written. Qed.
Print Assumptions C72_indent_partial.

(** *** The Parser: what it finds, after Parse and after calls of its methods *)
Theorem C72_parser_partial : forall d ops c', wf_doc d = true -> octets (text d) -> Forall op_octets ops -> container (d_val d) = true -> SpecParserOps.p_lawful true d ops c' ->
  exists p p' d', eventually (fun fuel => Parse_go (as_written fuel) (text d) = Ret (Some p, None)) /\
    eventually (fun fuel => calls_p (as_written fuel) (calls_of ops) p = Ret (p', repeat None (length ops))) /\
    wf_doc d' = true /\ content (d_val d') = c' /\ q_json p' = text d' /\
    forall q v, lookup (d_val d') q = Some v -> q <> [] -> straight (d_val d') q = true -> eventually (fun fuel => Get_p (as_written fuel) p' q = Ret (bare v, None)).
Proof. exact AsWrittenProofs.parser_history_written. Qed.
Print Assumptions C72_parser_partial.

(** *** On every document and every path there is an answer: no panic, and no loop without an end *)
Theorem C72_reads_answer : forall d path keys, wf_doc d = true -> octets (text d) ->
  answered (fun fuel => Get_go fuel (text d) path) /\ answered (fun fuel => GetString_go fuel (text d) path) /\
  answered (fun fuel => GetInt_go fuel (text d) path) /\ answered (fun fuel => GetBool_go fuel (text d) path) /\
  answered (fun fuel => GetAll_go fuel (text d) path keys) /\
  answered (fun fuel => IsObject_go fuel (text d) path) /\ answered (fun fuel => IsArray_go fuel (text d) path) /\ answered (fun fuel => IsValue_go fuel (text d) path) /\
  answered (fun fuel => IsEmpty_go fuel (text d) path) /\ answered (fun fuel => Length_go fuel (text d) path).
Proof. exact AsWrittenProofs.reads_answer. Qed.
Print Assumptions C72_reads_answer.

Theorem C72_listings_answer_partial : forall d path v, wf_doc d = true -> octets (text d) -> lookup (d_val d) path = Some v ->
  answered (fun fuel => GetKeys_go fuel (text d) path) /\ answered (fun fuel => GetValues_go fuel (text d) path) /\
  answered (fun fuel => GetKeysValues_go fuel (text d) path) /\ answered (fun fuel => GetMap_go fuel (text d) path).
Proof. exact AsWrittenProofs.listings_answer. Qed.
Print Assumptions C72_listings_answer_partial.

Theorem C72_updates_answer : forall d path key value new index, wf_doc d = true -> octets (text d) ->
  answered (fun fuel => Set_go fuel (text d) new path) /\ answered (fun fuel => SetKey_go fuel (text d) key path) /\
  answered (fun fuel => AddKeyValue_go fuel (text d) key value path) /\ answered (fun fuel => Add_go fuel (text d) new path) /\
  answered (fun fuel => Store_go fuel (text d) key value path) /\ answered (fun fuel => Insert_go fuel (text d) index new path).
Proof. exact AsWrittenProofs.updates_answer. Qed.
Print Assumptions C72_updates_answer.

Theorem C72_delete_answers_partial : forall d path, wf_doc d = true -> octets (text d) -> (forall x, In x path -> ~ SpecPanic.begins x (text d)) ->
  answered (fun fuel => Delete_go fuel (text d) path).
Proof. exact AsWrittenProofs.delete_answers. Qed.
Print Assumptions C72_delete_answers_partial.

(** A document with blanks, what is in it, and a history in which one call is refused *)
Definition ex72 : bytes := b " {""k"" : [1 , 22] ,""x"":{""a"":""z"" }}".
Definition ex72_ops : list op :=
  [OSet [b "k"; b "0"] (JString (b "s")); OAdd [b "x"] (JScalar (b "1")); OAddKV [b "x"] (b "n") (JScalar (b "0")); ODelete [b "k"] (b "1")].
Example C72_example :
  let d := doc_of ex72 in
  (wf_doc d = true /\ text d = ex72 /\ octets (text d) /\ Forall op_octets ex72_ops) /\
  (lookup (d_val d) [b "k"; b "1"] = Some (JScalar (b "22")) /\ Get_go 40 ex72 [b "k"; b "1"] = Ret (b "22", None)) /\
  (seen_absent d [] (b "y") /\ Get_go 40 ex72 [b "y"; b "0"] = Ret ([], Some (EKeyNotFound (b "y")))) /\
  (exists o, nth_error ex72_ops 0 = Some o /\ legal d o /\ exists c', meaning o (content (d_val d)) = Some c') /\
  (exists o, nth_error ex72_ops 1 = Some o /\ rejected d o) /\
  run_go 60 ex72_ops ex72 = Ret (b " {""k"" : [""s"" ] ,""x"":{""a"":""z"" ,""n"":0}}") /\
  (whole d [b "k"] /\ GetIntArray_go 40 ex72 [b "k"] = Ret ([], Some (EIntegerParse (b "1 "))) /\ GetStringArray_go 40 ex72 [b "k"] = Ret ([b "1 "; b "22"], None) /\ GetIntArray_go 40 (b "[1, 22]") [] = Ret ([1; 22]%Z, None)) /\
  (IsEmpty_go 40 ex72 [b "k"] = Ret (false, None) /\ forall x, In x [b "x"; b "a"] -> ~ SpecPanic.begins x (text d)) /\
  Flatten_go 40 ex72 = Ret (b "{""k"":[1,22],""x"":{""a"":""z""}}") /\
  (exists p p', Parse_go (as_written 60) ex72 = Ret (Some p, None) /\ calls_p (as_written 60) (calls_of (firstn 1 ex72_ops)) p = Ret (p', [None]) /\ Get_p (as_written 60) p' [b "k"; b "0"] = Ret (b "s", None)).
Proof.
  intro d. split; [split; [reflexivity|]; split; [vm_compute; reflexivity|]; split; [vm_compute|]; repeat constructor|].
  split; [split; vm_compute; reflexivity|]. split; [split; [apply seen_absent_b_sound; reflexivity|vm_compute; reflexivity]|].
  split; [eexists; split; [reflexivity|]; split; [split; [discriminate|reflexivity]|eexists; vm_compute; reflexivity]|].
  split.
  { eexists. split; [reflexivity|]. right. destruct (lookup_focus (d_val d) [b "x"] _ ltac:(vm_compute; reflexivity)) as (pre & post & Hf).
    exists pre, (JObj [] [Mem [] (b "a") [] [] (JString (b "z")) (b " ")]), post. split; [exact Hf|]. split; [reflexivity|]. intros _. reflexivity. }
  split; [vm_compute; reflexivity|].
  split; [split; [left; discriminate|]; split; [vm_compute; reflexivity|]; split; vm_compute; reflexivity|].
  split; [split; [vm_compute; reflexivity|]; intros x [<-|[<-|[]]] (r & E); vm_compute in E; discriminate E|].
  split; [vm_compute; reflexivity|].
  eexists. eexists. split; [vm_compute; reflexivity|]. split; [vm_compute; reflexivity|]. vm_compute. reflexivity.
Qed.
(** Counting, telling kinds and mapping: the hypotheses met and what is answered, both branches of the count and of the map. *)
Example C72_more_example :
  let d := doc_of ex72 in
  let short := doc_of (b "[7]") in
  (wf_doc d = true /\ octets (text d) /\ lookup (d_val d) [b "k"] <> None) /\
  (lone (d_val short) = true /\ lookup (d_val short) [] = Some (d_val short) /\ Length_go 40 (b "[7]") [] = Ret (0%Z, None) /\ Length_go 40 ex72 [b "k"] = Ret (2%Z, None)) /\
  (forall pf, GetType_go 40 ex72 [b "k"] pf = Ret (b "array", None) /\ GetType_go 40 ex72 [b "x"; b "a"] pf = Ret (b "string", None)) /\
  (let pf s := bytes_eqb s (b "22") in pf (b "22") = true /\ GetType_go 40 ex72 [b "k"; b "1"] pf = Ret (b "number", None)) /\
  (IsObject_go 40 ex72 [b "k"] = Ret (true, None) /\ IsObject_go 40 ex72 [b "k"; b "1"] = Ret (false, None)) /\
  (exists pre v post, focus (d_val d) [] pre v post /\ container v = true /\ closed_after d [] v post) /\
  GetMap_go 40 ex72 [b "x"] = Ret (Some [(b "a", b "z")], None) /\
  (GetMap_go 40 (b "{}") [] = Ret (None, None) /\ GetMap_go 40 ex72 [b "k"] = Ret (None, Some (EBadJSON 8))).
Proof.
  intros d short. split; [split; [reflexivity|]; split; [vm_compute; repeat constructor|vm_compute; discriminate]|].
  split; [repeat split; vm_compute; reflexivity|]. split; [intro pf; split; vm_compute; reflexivity|]. split; [split; vm_compute; reflexivity|]. split; [split; vm_compute; reflexivity|].
  split; [|split; [|split]; vm_compute; reflexivity].
  exists [], (d_val d), []. split; [constructor|]. split; [reflexivity|left; reflexivity].
Qed.
