(** Properties C29 (Parse-then-Get) and C30 (the update methods of the Parser). *)
From Coq Require Import String.
From Verif Require Import GoStd Json Spec SpecProofs Parse Focus Domains Core Errors Api Updates Ops History Iter SpecParser Parser ParserProofs ParserGet ParserUpd
  ParserOps ParserInsert.

Local Open Scope N_scope.

(** ** C29

    Full statement: false for steps into an array of exactly one scalar or string, which gets no node
    ([C29_lonely_refuted]), and for indexes Atoi accepts but Itoa does not write ([C29_index_refuted]). *)
Definition C29_statement : Prop := forall d q, wf_doc d = true -> container (d_val d) = true ->
  exists p, Parse (text d) = Ok p /\
    (forall v, lookup (d_val d) q = Some v -> q <> [] -> P_Get p q = Ok (bare v) /\ Get (text d) q = Ok (bare v)) /\
    (lookup (d_val d) q = None -> exists e, P_Get p q = Err e).

Theorem C29_found_partial : forall d q v, wf_doc d = true -> container (d_val d) = true ->
  lookup (d_val d) q = Some v -> q <> [] -> straight (d_val d) q = true ->
  exists p, Parse (text d) = Ok p /\ P_Get p q = Ok (bare v) /\ Get (text d) q = Ok (bare v).
Proof. exact parse_found. Qed.
Print Assumptions C29_found_partial.

(** Whatever is found is what Get finds; no condition on the path. *)
Theorem C29_same_as_get : forall d p q t, wf_doc d = true -> fits (text d) -> container (d_val d) = true ->
  Parse (text d) = Ok p -> P_Get p q = Ok t -> lookup (d_val d) q <> None /\ Get (text d) q = Ok t.
Proof. exact parse_sound. Qed.
Print Assumptions C29_same_as_get.

(** A path that does not resolve fails, naming one of its keys: the first that does not resolve, if the path is straight. *)
Theorem C29_absent : forall d p q, wf_doc d = true -> fits (text d) -> container (d_val d) = true ->
  Parse (text d) = Ok p -> lookup (d_val d) q = None ->
  exists q0 x r, q = q0 ++ x :: r /\ P_Get p q = Err (EKeyNotFound x) /\ lookup (d_val d) q0 <> None /\
    (straight (d_val d) q = true -> lookup (d_val d) (q0 ++ [x]) = None).
Proof. exact parse_absent. Qed.
Print Assumptions C29_absent.

(** Parse always succeeds on a well-formed container, and JSON gives the text back. *)
Theorem C29_parse : forall d, wf_doc d = true -> container (d_val d) = true ->
  exists p, Parse (text d) = Ok p /\ P_JSON p = text d /\ answers p d.
Proof. exact parse_total. Qed.
Print Assumptions C29_parse.

(** A scalar or string at the root has no node: Parse fails. *)
Theorem C29_no_container : forall d, wf_doc d = true -> container (d_val d) = false -> Parse (text d) = Err (EBadJSON 0).
Proof. exact parse_leaf. Qed.
Print Assumptions C29_no_container.

Theorem C29_lonely_refuted : ~ C29_statement.
Proof.
  intro H. destruct (H (doc_of (b "[5]")) [b "0"] eq_refl eq_refl) as (p & Hp & Hf & _).
  destruct (Hf (JScalar (b "5")) eq_refl) as [Hg _]; [discriminate|]. vm_compute in Hp. injection Hp as <-. vm_compute in Hg. discriminate Hg.
Qed.
Print Assumptions C29_lonely_refuted.

Theorem C29_index_refuted : ~ C29_statement.
Proof.
  intro H. destruct (H (doc_of (b "[5,6]")) [b "+1"] eq_refl eq_refl) as (p & Hp & Hf & _).
  destruct (Hf (JScalar (b "6")) eq_refl) as [Hg _]; [discriminate|]. vm_compute in Hp. injection Hp as <-. vm_compute in Hg. discriminate Hg.
Qed.
Print Assumptions C29_index_refuted.

Definition ex29 : doc := doc_of (b "  { ""a"" : [1, ""x\"",]"" , {}, [ ]], ""b"": {""a"": 7 , """":[[1]]} , ""a"":9} ").
Example C29_example :
  wf_doc ex29 = true /\ container (d_val ex29) = true /\
  straight (d_val ex29) [b "b"; b ""; b "0"] = true /\
  lookup (d_val ex29) [b "b"; b ""; b "0"] = Some (JArr [] [Elem [] (JScalar (b "1")) []]) /\
  (exists p, Parse (text ex29) = Ok p /\
    P_Get p [b "b"; b ""; b "0"] = Ok (b "[1]") /\ P_Get p [b "a"; b "1"] = Ok (b "x\"",]") /\ P_Get p [b "a"; b "3"] = Ok (b "[ ]") /\
    P_Get p [b "b"; b "a"] = Ok (b "7") /\ P_Get p [b "a"] = Ok (b "[1, ""x\"",]"" , {}, [ ]]") /\
    P_Get p [b "b"; b "c"; b "d"] = Err (EKeyNotFound (b "c")) /\ P_Get p [b "a"; b "4"] = Err (EKeyNotFound (b "4")) /\
    P_Get p [b "b"; b ""; b "0"; b "0"] = Err (EKeyNotFound (b "0")) /\ P_Get p [] = Ok (text ex29)) /\
  lookup (d_val ex29) [b "b"; b "c"; b "d"] = None /\
  Parse (text (doc_of (b " ""x"" "))) = Err (EBadJSON 0).
Proof. repeat split; try (vm_compute; reflexivity). eexists. split; [vm_compute; reflexivity|]. repeat split; vm_compute; reflexivity. Qed.

(** ** C30

    Full statement: after successful updates the parser holds the text the interpreter's functions make, and answers
    like a new parser of that text.  Both parts fail in many ways; the witnesses are below. *)
Definition C30_statement : Prop := forall d p ops p', wf_doc d = true -> Parse (text d) = Ok p -> Forall op_ok ops ->
  p_run ops p = Some p' ->
  exists out p2, run ops (text d) = Some out /\ p_json p' = out /\ Parse out = Ok p2 /\
    forall d' q, wf_doc d' = true -> text d' = out -> straight (d_val d') q = true -> P_Get p' q = P_Get p2 q.

(** Any history of updates from Parse on: the methods do to the text what the functions do, the content is the one
    meant, and every answer of Get agrees with the text.  [p_lawful] asks of each call, when its turn comes, that it
    apply and be in the domain of the interpreter's theorem ([legal]) and of the tree ([p_legal]: scalars and strings
    put in, nothing overwritten that has children, unique keys, last elements deleted); one call may be an Insert. *)
Theorem C30_history_partial : forall d ops c', wf_doc d = true -> container (d_val d) = true -> p_lawful true d ops c' ->
  exists p d' p', Parse (text d) = Ok p /\ p_run ops p = Some p' /\ run ops (text d) = Some (text d') /\
    wf_doc d' = true /\ content (d_val d') = c' /\ answers p' d'.
Proof. exact parse_history. Qed.
Print Assumptions C30_history_partial.

(** The same, against a new parser of the text. *)
Theorem C30_like_new_partial : forall d ops c' p p', wf_doc d = true -> Parse (text d) = Ok p -> p_lawful true d ops c' ->
  p_run ops p = Some p' ->
  exists d', p_json p' = text d' /\ wf_doc d' = true /\ content (d_val d') = c' /\
    forall p2, Parse (p_json p') = Ok p2 -> fits (p_json p') -> forall q, straight (d_val d') q = true -> P_Get p' q = P_Get p2 q.
Proof. exact history_like_new. Qed.
Print Assumptions C30_like_new_partial.

(** One call right after Parse, by method. *)
Theorem C30_set_partial : forall d q v old c', wf_doc d = true -> container (d_val d) = true ->
  legal d (OSet q v) -> leaf v = true -> straight (d_val d) q = true -> lookup (d_val d) q = Some old -> hollow old = true ->
  meaning (OSet q v) (content (d_val d)) = Some c' ->
  exists p d' p', Parse (text d) = Ok p /\ P_Set p (render v) q = PRet p' None /\ Set_ (text d) (render v) q = Done (text d') /\
    wf_doc d' = true /\ content (d_val d') = c' /\ answers p' d'.
Proof. exact parse_set. Qed.
Print Assumptions C30_set_partial.

Theorem C30_delete_partial : forall d q x c', wf_doc d = true -> container (d_val d) = true ->
  legal d (ODelete q x) -> p_legal d (ODelete q x) -> meaning (ODelete q x) (content (d_val d)) = Some c' ->
  exists p d' p', Parse (text d) = Ok p /\ P_Delete p (q ++ [x]) = PRet p' None /\ Delete (text d) (q ++ [x]) = Done (text d') /\
    wf_doc d' = true /\ content (d_val d') = c' /\ answers p' d'.
Proof. exact parse_delete. Qed.
Print Assumptions C30_delete_partial.

Theorem C30_add_partial : forall d q v c', wf_doc d = true -> container (d_val d) = true ->
  legal d (OAdd q v) -> p_legal d (OAdd q v) -> meaning (OAdd q v) (content (d_val d)) = Some c' ->
  exists p d' p', Parse (text d) = Ok p /\ P_Add p (render v) q = PRet p' None /\ Add_ (text d) (render v) q = Done (text d') /\
    wf_doc d' = true /\ content (d_val d') = c' /\ answers p' d'.
Proof. exact parse_add. Qed.
Print Assumptions C30_add_partial.

Theorem C30_add_key_value_partial : forall d q k v c', wf_doc d = true -> container (d_val d) = true ->
  legal d (OAddKV q k v) -> p_legal d (OAddKV q k v) -> meaning (OAddKV q k v) (content (d_val d)) = Some c' ->
  exists p d' p', Parse (text d) = Ok p /\ P_AddKeyValue p k (render v) q = PRet p' None /\
    AddKeyValue (text d) k (Some (render v)) q = Done (text d') /\
    wf_doc d' = true /\ content (d_val d') = c' /\ answers p' d'.
Proof. exact parse_addkv. Qed.
Print Assumptions C30_add_key_value_partial.

Theorem C30_set_key_partial : forall d q x k c', wf_doc d = true -> container (d_val d) = true ->
  legal d (OSetKey q x k) -> p_legal d (OSetKey q x k) -> meaning (OSetKey q x k) (content (d_val d)) = Some c' ->
  exists p d' p', Parse (text d) = Ok p /\ P_SetKey p k (q ++ [x]) = PRet p' None /\ SetKey (text d) k (q ++ [x]) = Done (text d') /\
    wf_doc d' = true /\ content (d_val d') = c' /\ answers p' d'.
Proof. exact parse_setkey. Qed.
Print Assumptions C30_set_key_partial.

Theorem C30_insert_partial : forall d q z v c', wf_doc d = true -> container (d_val d) = true ->
  legal d (OInsert q z v) -> p_insertable d q v -> meaning (OInsert q z v) (content (d_val d)) = Some c' ->
  exists p d' p', Parse (text d) = Ok p /\ P_Insert p z (render v) q = PRet p' None /\ Insert (text d) z (render v) q = Done (text d') /\
    wf_doc d' = true /\ content (d_val d') = c' /\ answers p' d'.
Proof. exact parse_insert. Qed.
Print Assumptions C30_insert_partial.

(** Computes whether the parser and a new parser of the new text differ at [q] after [ops]. *)
Definition same_get (x y : res bytes) : bool :=
  match x, y with
  | Ok s, Ok t => bytes_eqb s t
  | Ok _, _ | _, Ok _ => false
  | _, _ => true
  end.
Definition breaks (t : bytes) (ops : list op) (q : list bytes) : bool :=
  match parse_doc t, Parse t with
  | Some d, Ok p =>
      wf_doc d && bytes_eqb (text d) t &&
      match p_run ops p with
      | Some p' =>
          match run ops t with
          | Some out =>
              if bytes_eqb (p_json p') out then
                match Parse out, parse_doc out with
                | Ok p2, Some d' => wf_doc d' && bytes_eqb (text d') out && straight (d_val d') q &&
                    negb (same_get (P_Get p' q) (P_Get p2 q))
                | Ok _, None => false
                | _, _ => true
                end
              else true
          | None => true
          end
      | None => false
      end
  | _, _ => false
  end.
Lemma breaks_sound t ops q : Forall op_ok ops -> breaks t ops q = true -> ~ C30_statement.
Proof.
  intros Ho Hb H. unfold breaks in Hb. destruct (parse_doc t) as [d|]; [|discriminate]. destruct (Parse t) as [p|e|] eqn:Hp; try discriminate.
  apply andb_true_iff in Hb. destruct Hb as [Hb Hb']. apply andb_true_iff in Hb. destruct Hb as [Hw Ht].
  destruct (bytes_eqb_spec (text d) t) as [<-|]; [|discriminate].
  destruct (p_run ops p) as [p'|] eqn:Hc; try discriminate. destruct (H d p ops p' Hw Hp Ho Hc) as (out & p2 & H1 & H2 & H3 & H4).
  rewrite H1, H2, H3, bytes_eqb_refl in Hb'. destruct (parse_doc out) as [d'|]; [|discriminate].
  destruct (wf_doc d') eqn:E1; [|discriminate]. destruct (bytes_eqb_spec (text d') out) as [E2|]; [|discriminate]. destruct (straight (d_val d') q) eqn:E3; [|discriminate].
  rewrite (H4 d' q E1 E2 E3) in Hb'. destruct (P_Get p2 q) as [s|e|]; [|discriminate|discriminate]. cbn [same_get] in Hb'. rewrite bytes_eqb_refl in Hb'. discriminate.
Qed.

Local Ltac op_ok_tac := repeat apply Forall_cons; [..|apply Forall_nil]; repeat split; discriminate.

(** A container put in with Set gets its children under an extra node "0". *)
Theorem C30_set_container_refuted : ~ C30_statement.
Proof. apply (breaks_sound (b "{""a"":1}") [OSet [b "a"] (JArr [] [Elem [] (JScalar (b "1")) []; Elem [] (JScalar (b "2")) []])] [b "a"; b "0"]); [op_ok_tac|vm_compute; reflexivity]. Qed.
Print Assumptions C30_set_container_refuted.

(** Set over a container keeps the children of the old value. *)
Theorem C30_set_over_container_refuted : ~ C30_statement.
Proof. apply (breaks_sound (b "{""a"":{""b"":1}}") [OSet [b "a"] (JScalar (b "5"))] [b "a"; b "b"]); [op_ok_tac|vm_compute; reflexivity]. Qed.
Print Assumptions C30_set_over_container_refuted.

(** Delete does not renumber the elements after the deleted one. *)
Theorem C30_delete_element_refuted : ~ C30_statement.
Proof. apply (breaks_sound (b "[1,2,3]") [ODelete [] (b "0")] [b "0"]); [op_ok_tac|vm_compute; reflexivity]. Qed.
Print Assumptions C30_delete_element_refuted.

(** Delete drops the nodes of all members with the key, the text keeps the others. *)
Theorem C30_delete_twin_refuted : ~ C30_statement.
Proof. apply (breaks_sound (b "{""a"":1,""a"":2}") [ODelete [] (b "a")] [b "a"]); [op_ok_tac|vm_compute; reflexivity]. Qed.
Print Assumptions C30_delete_twin_refuted.

(** Add to an array of one scalar gives the new element the label "0". *)
Theorem C30_add_lonely_refuted : ~ C30_statement.
Proof. apply (breaks_sound (b "{""a"":[1]}") [OAdd [b "a"] (JScalar (b "2"))] [b "a"; b "0"]); [op_ok_tac|vm_compute; reflexivity]. Qed.
Print Assumptions C30_add_lonely_refuted.

(** Add of a container does not refresh the outermost value on the path. *)
Theorem C30_add_container_refuted : ~ C30_statement.
Proof. apply (breaks_sound (b "{""a"":[1,2]}") [OAdd [b "a"] (JArr [] [])] [b "a"]); [op_ok_tac|vm_compute; reflexivity]. Qed.
Print Assumptions C30_add_container_refuted.

(** At the root Add puts its comma even into an array without elements. *)
Theorem C30_add_root_blank_refuted : ~ C30_statement.
Proof. apply (breaks_sound (b "[]") [OAdd [] (JScalar (b "5"))] [b "0"]); [op_ok_tac|vm_compute; reflexivity]. Qed.
Print Assumptions C30_add_root_blank_refuted.

(** So does AddKeyValue. *)
Theorem C30_add_key_value_root_refuted : ~ C30_statement.
Proof. apply (breaks_sound (b "{}") [OAddKV [] (b "k") (JScalar (b "5"))] [b "k"]); [op_ok_tac|vm_compute; reflexivity]. Qed.
Print Assumptions C30_add_key_value_root_refuted.

(** A container put in with AddKeyValue gets its children under an extra node "0". *)
Theorem C30_add_key_value_container_refuted : ~ C30_statement.
Proof. apply (breaks_sound (b "{""a"":1}") [OAddKV [] (b "kk") (JObj [] [Mem [] (b "x") [] [] (JScalar (b "1")) []])] [b "kk"; b "x"]); [op_ok_tac|vm_compute; reflexivity]. Qed.
Print Assumptions C30_add_key_value_container_refuted.

(** Insert of a container at the root leaves its node without a value. *)
Theorem C30_insert_container_refuted : ~ C30_statement.
Proof. apply (breaks_sound (b "[1,2]") [OInsert [] 1 (JArr [] [Elem [] (JScalar (b "1")) []; Elem [] (JScalar (b "2")) []])] [b "1"]); [op_ok_tac|vm_compute; reflexivity]. Qed.
Print Assumptions C30_insert_container_refuted.

(** SetKey renames the node of an array element too (the text does not change). *)
Theorem C30_set_key_element_refuted : ~ C30_statement.
Proof. apply (breaks_sound (b "{""a"":[1,2]}") [OSetKey [b "a"] (b "0") (b "k")] [b "a"; b "0"]); [op_ok_tac|vm_compute; reflexivity]. Qed.
Print Assumptions C30_set_key_element_refuted.

(** A second Insert relabels the node of the first by its position in the list of nodes, the last. *)
Theorem C30_second_insert_refuted : ~ C30_statement.
Proof.
  apply (breaks_sound (b "[1,2,3]") [OInsert [] 0 (JScalar (b "8")); OInsert [] 0 (JScalar (b "9"))] [b "1"]); [op_ok_tac|vm_compute; reflexivity].
Qed.
Print Assumptions C30_second_insert_refuted.

Definition ex30 : doc := doc_of (b "{ ""a"" : [1, 2 ], ""b"" :{""c"":null } }").
Definition ex30_ops : list op :=
  [OSet [b "a"; b "1"] (JString (b "x")); OSetKey [b "b"] (b "c") (b "d"); OAddKV [b "b"] (b "e") (JScalar (b "0"));
   OAdd [b "a"] (JScalar (b "3")); ODelete [b "b"] (b "d")].
Example C30_example :
  wf_doc ex30 = true /\ container (d_val ex30) = true /\
  p_lawful true ex30 [OSet [b "a"; b "1"] (JString (b "x")); OAdd [b "a"] (JScalar (b "3"))]
    (DObj [(b "a", DArr [DScalar (b "1"); DString (b "x"); DScalar (b "3")]); (b "b", DObj [(b "c", DScalar (b "null"))])]) /\
  (legal ex30 (OInsert [b "a"] 0 (JScalar (b "0"))) /\ p_insertable ex30 [b "a"] (JScalar (b "0")) /\
   meaning (OInsert [b "a"] 0 (JScalar (b "0"))) (content (d_val ex30)) <> None) /\
  (legal ex30 (OSetKey [b "b"] (b "c") (b "d")) /\ p_legal ex30 (OSetKey [b "b"] (b "c") (b "d"))) /\
  (legal ex30 (OAddKV [b "b"] (b "d") (JScalar (b "0"))) /\ p_legal ex30 (OAddKV [b "b"] (b "d") (JScalar (b "0")))) /\
  (legal ex30 (ODelete [b "a"] (b "1")) /\ p_legal ex30 (ODelete [b "a"] (b "1"))) /\
  exists p p' p'', Parse (text ex30) = Ok p /\ p_run ex30_ops p = Some p' /\ run ex30_ops (text ex30) = Some (p_json p') /\
    p_json p' = b "{ ""a"" : [1, ""x"" ,3], ""b"" :{""e"":0} }" /\
    P_Get p' [b "a"; b "2"] = Ok (b "3") /\ P_Get p' [b "b"] = Ok (b "{""e"":0}") /\ P_Get p' [b "b"; b "e"] = Ok (b "0") /\
    P_Get p' [b "b"; b "d"] = Err (EKeyNotFound (b "d")) /\ P_Get p' [b "a"; b "1"] = Ok (b "x") /\
    P_Insert p 0 (b "7") [b "a"] = PRet p'' None /\ P_Get p'' [b "a"; b "0"] = Ok (b "7") /\ P_Get p'' [b "a"; b "1"] = Ok (b "1") /\
    P_Get p'' [b "a"] = Ok (b "[7,1, 2 ]").
Proof.
  split; [reflexivity|]. split; [reflexivity|]. split; [|split; [|split; [|split; [|split]]]].
  - eapply PL_do with (c1 := DObj [(b "a", DArr [DScalar (b "1"); DString (b "x")]); (b "b", DObj [(b "c", DScalar (b "null"))])]).
    + split; [discriminate|reflexivity].
    + split; [reflexivity|]. split; [reflexivity|]. eexists. split; reflexivity.
    + reflexivity.
    + intros [pre v post] _ _ Hc. cbn [d_val] in *.
      pose proof Hc as Hc0. destruct v as [| |w ms|w ms]; try discriminate Hc. destruct ms as [|m1 [|m2 [|]]]; try discriminate Hc. injection Hc as K1 V1 K2 V2.
      destruct (m_val m1) as [| |w1 els1|] eqn:E1; try discriminate V1. destruct els1 as [|e1 [|e2 [|]]]; try discriminate V1.
      assert (Hch : child (JObj w [m1; m2]) (b "a") = Some (JArr w1 [e1; e2])).
      { cbn [child find_mem]. unfold find_mem. cbn [find]. rewrite K1. cbn. rewrite E1. reflexivity. }
      eapply PL_do.
      * reflexivity.
      * split; [reflexivity|]. split; [|split; [discriminate|]].
        -- unfold d_val. cbn [straight]. rewrite Hch. reflexivity.
        -- exists w1, [e1; e2]. split; [|reflexivity]. unfold d_val. cbn [lookup]. rewrite Hch. reflexivity.
      * unfold d_val. rewrite Hc0. reflexivity.
      * intros d'' _ _ Hc2. match goal with |- p_lawful _ _ _ ?c => replace c with (content (d_val d'')) by (rewrite Hc2; reflexivity) end. apply PL_nil.
  - split; [|split].
    + split; [reflexivity|]. split; [discriminate|]. eexists _, _. split; [reflexivity|]. left. reflexivity.
    + split; [reflexivity|]. split; [reflexivity|]. split; [discriminate|]. intros w els H. vm_compute in H. injection H as <- <-. reflexivity.
    + discriminate.
  - split.
    + split; [reflexivity|]. split; [discriminate|]. apply seen_absent_b_sound. reflexivity.
    + split; [reflexivity|]. eexists _, [], _, []. split; [reflexivity|]. split; [reflexivity|]. split; constructor.
  - split.
    + split; [reflexivity|]. split; [reflexivity|]. left. apply seen_absent_b_sound. reflexivity.
    + split; [reflexivity|]. split; [reflexivity|]. split; [discriminate|]. split; [discriminate|].
      intros q0 x u H Hl. destruct q0 as [|y [|]]; [|discriminate H|discriminate H]. vm_compute in Hl. injection Hl as <-.
      repeat constructor; discriminate.
  - split; [exact I|]. split; [reflexivity|]. right. eexists _, [_], _. split; reflexivity.
  - eexists _, _, _. split; [vm_compute; reflexivity|]. split; [vm_compute; reflexivity|]. repeat split; vm_compute; reflexivity.
Qed.

Definition ex30_then (json : bytes) (call : parser -> pres) (p q : list bytes) : option (bytes * option err * res bytes * res bytes) :=
  match Parse json with
  | Ok t => match call t with PRet t' e => Some (p_json t', e, P_Get t' p, P_Get t' q) | _ => None end
  | _ => None
  end.
(** Calls at the root and in members, with the value of an enclosing container afterwards. *)
Example C30_example_calls :
  ex30_then (text ex30) (fun t => P_Set t (b "-7") [b "a"; b "1"]) [b "a"] [b "a"; b "1"] =
    Some (b "{ ""a"" : [1, -7 ], ""b"" :{""c"":null } }", None, Ok (b "[1, -7 ]"), Ok (b "-7")) /\
  ex30_then (text ex30) (fun t => P_SetKey t (b "x") [b "b"; b "c"]) [b "b"] [b "b"; b "x"] =
    Some (b "{ ""a"" : [1, 2 ], ""b"" :{""x"":null } }", None, Ok (b "{""x"":null }"), Ok (b "null")) /\
  ex30_then (text ex30) (fun t => P_AddKeyValue t (b "x") (b "9") [b "b"]) [b "b"] [b "b"; b "x"] =
    Some (b "{ ""a"" : [1, 2 ], ""b"" :{""c"":null ,""x"":9} }", None, Ok (b "{""c"":null ,""x"":9}"), Ok (b "9")) /\
  ex30_then (text ex30) (fun t => P_AddKeyValue t (b "x") (b "9") []) [b "b"] [b "x"] =
    Some (b "{ ""a"" : [1, 2 ], ""b"" :{""c"":null } ,""x"":9}", None, Ok (b "{""c"":null }"), Ok (b "9")) /\
  ex30_then (text ex30) (fun t => P_Add t (b "9") [b "a"]) [b "a"] [b "a"; b "2"] =
    Some (b "{ ""a"" : [1, 2 ,9], ""b"" :{""c"":null } }", None, Ok (b "[1, 2 ,9]"), Ok (b "9")) /\
  ex30_then (b "[1,[2,[5]],3 ]") (fun t => P_Add t (b "9") [b "1"; b "1"]) [b "1"] [b "1"; b "1"] =
    Some (b "[1,[2,[5,9]],3 ]", None, Ok (b "[2,[5,9]]"), Ok (b "[5,9]")) /\
  ex30_then (b "[1,[2],3 ]") (fun t => P_Add t (b "9") []) [b "3"] [b "2"] =
    Some (b "[1,[2],3 ,9]", None, Ok (b "9"), Ok (b "3")) /\
  ex30_then (b "[1,2,3 ]") (fun t => P_Insert t 1 (b "9") []) [b "1"] [b "2"] =
    Some (b "[1,9,2,3 ]", None, Ok (b "9"), Ok (b "2")).
Proof. repeat match goal with |- _ /\ _ => split end; vm_compute; reflexivity. Qed.
