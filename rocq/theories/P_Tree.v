(** Properties C47 (typed getters and GetNew of the Parser) and C48 (Tree and TreeFull). *)
From Coq Require Import String.
From Verif Require Import GoStd Json Spec SpecProofs Parse Focus Core Errors Api Iter SpecParser Parser ParserProofs ParserGet ParserUpd
  ParserOps ParserInsert Ops History SpecTree Tree TreeProofs ParserNew.

Local Open Scope N_scope.

(** ** C47

    Full statement: after Parse and any successful updates the typed getters of the parser answer like those of the
    interpreter, and GetNew gives a well-formed text of the same content as the value addressed.
    False for GetNew after updates: the root node's text is never renewed ([C47_get_new_refuted]), and an inserted element
    is shown last ([C47_insert_refuted]). *)
Definition C47_statement : Prop := forall d p ops p', wf_doc d = true -> Parse (text d) = Ok p -> Forall op_ok ops ->
  p_run ops p = Some p' ->
  forall d' q v, wf_doc d' = true -> text d' = p_json p' -> straight (d_val d') q = true -> lookup (d_val d') q = Some v ->
  exists v', P_GetNew p' q = Ok (bare v') /\ wf v' = true /\ content v' = content v.

(** The eight getters; [ff] is strconv.ParseFloat. *)
Theorem C47_typed : forall F (ff : bytes -> option F) d p q v, wf_doc d = true -> Parse (text d) = Ok p ->
  lookup (d_val d) q = Some v -> straight (d_val d) q = true ->
  P_GetString p q = GetString (text d) q /\ P_GetInt p q = GetInt (text d) q /\ P_GetBool p q = GetBool (text d) q /\
  P_GetFloat ff p q = GetFloat ff (text d) q /\
  P_GetStringArray p q = GetStringArray (text d) q /\ P_GetIntArray p q = GetIntArray (text d) q /\
  P_GetBoolArray p q = GetBoolArray (text d) q /\ P_GetFloatArray ff p q = GetFloatArray ff (text d) q.
Proof. exact parsed_typed. Qed.
Print Assumptions C47_typed.

(** After any history of updates that keeps the parser right (C30). *)
Theorem C47_typed_history_partial : forall F (ff : bytes -> option F) d ops c', wf_doc d = true -> container (d_val d) = true -> p_lawful true d ops c' ->
  exists p p' d', Parse (text d) = Ok p /\ p_run ops p = Some p' /\ run ops (text d) = Some (text d') /\
    wf_doc d' = true /\ content (d_val d') = c' /\
    forall q v, lookup (d_val d') q = Some v -> straight (d_val d') q = true ->
    P_GetString p' q = GetString (text d') q /\ P_GetInt p' q = GetInt (text d') q /\ P_GetBool p' q = GetBool (text d') q /\
    P_GetFloat ff p' q = GetFloat ff (text d') q /\
    P_GetStringArray p' q = GetStringArray (text d') q /\ P_GetIntArray p' q = GetIntArray (text d') q /\
    P_GetBoolArray p' q = GetBoolArray (text d') q /\ P_GetFloatArray ff p' q = GetFloatArray ff (text d') q.
Proof. exact history_typed. Qed.
Print Assumptions C47_typed_history_partial.

(** Where Get fails, all of them fail the same way; on every parser. *)
Theorem C47_typed_fails : forall F (ff : bytes -> option F) p q e, P_Get p q = Err e ->
  P_GetString p q = Err e /\ P_GetInt p q = Err e /\ P_GetBool p q = Err e /\ P_GetFloat ff p q = Err e /\
  P_GetStringArray p q = Err e /\ P_GetIntArray p q = Err e /\ P_GetBoolArray p q = Err e /\ P_GetFloatArray ff p q = Err e.
Proof. exact typed_fails. Qed.
Print Assumptions C47_typed_fails.

(** GetNew right after Parse: the value addressed, without the blanks next to containers and keys; nothing if the walk fails. *)
Theorem C47_get_new_partial : forall d p q, wf_doc d = true -> fits (text d) -> Parse (text d) = Ok p ->
  (exists v, lookup (d_val d) q = Some v /\ P_GetNew p q = Ok (bare (condensed v)) /\
     wf (condensed v) = true /\ content (condensed v) = content v) \/
  (P_GetNew p q = Ok [] /\ (straight (d_val d) q = true -> lookup (d_val d) q = None)).
Proof. exact get_new_content. Qed.
Print Assumptions C47_get_new_partial.

(** After deleting the only member, GetNew() still shows it. *)
Theorem C47_get_new_refuted : ~ C47_statement.
Proof.
  intro H. assert (Hp : exists p, Parse (text (doc_of (b "{""a"":1}"))) = Ok p) by (eexists; vm_compute; reflexivity). destruct Hp as (p & Hp).
  assert (Hr : exists p', p_run [ODelete [] (b "a")] p = Some p' /\ p_json p' = b "{}" /\ P_GetNew p' [] = Ok (b "{""a"":1}")).
  { vm_compute in Hp. injection Hp as <-. eexists. split; [vm_compute; reflexivity|]. split; vm_compute; reflexivity. }
  destruct Hr as (p' & Hr & Hj & Hg).
  destruct (H (doc_of (b "{""a"":1}")) p [ODelete [] (b "a")] p' eq_refl Hp ltac:(repeat constructor) Hr (doc_of (b "{}")) [] (JObj [] []) eq_refl) as (v' & Hv & Hw & Hc); try reflexivity.
  - rewrite Hj. reflexivity.
  - rewrite Hg in Hv. injection Hv as Hv. destruct v' as [s|s|w els|w [|m ms]]; try discriminate Hc.
    cbn in Hv. vm_compute in Hv. injection Hv as Hv. destruct w as [|c w]; [discriminate Hv|]. injection Hv as <- _. discriminate Hw.
Qed.
Print Assumptions C47_get_new_refuted.

(** After any history of updates that keeps the parser right (C30) and has no Insert in it ([p_lawful false]).  Missing: values
    with a repeated key; the document itself when it is empty or an array of one scalar or string; Insert. *)
Theorem C47_get_new_history_partial : forall d ops c', wf_doc d = true -> container (d_val d) = true -> p_lawful false d ops c' ->
  exists p p' d', Parse (text d) = Ok p /\ p_run ops p = Some p' /\ run ops (text d) = Some (text d') /\
    wf_doc d' = true /\ content (d_val d') = c' /\
    forall q v, lookup (d_val d') q = Some v -> straight (d_val d') q = true -> single_keys v = true ->
      (q = [] -> hollow v = false /\ lonely v = false) ->
      exists v', P_GetNew p' q = Ok (bare v') /\ wf v' = true /\ content v' = content v.
Proof. exact history_get_new. Qed.
Print Assumptions C47_get_new_history_partial.

(** An element inserted at the front comes last. *)
Theorem C47_insert_refuted : ~ (forall d p q z v p' d' u, wf_doc d = true -> Parse (text d) = Ok p -> wf v = true ->
  p_run [OInsert q z v] p = Some p' -> wf_doc d' = true -> text d' = p_json p' -> q <> [] -> lookup (d_val d') q = Some u ->
  exists v', P_GetNew p' q = Ok (bare v') /\ wf v' = true /\ content v' = content u).
Proof.
  intro H. assert (Hp : exists p, Parse (text (doc_of (b "{""a"":[1,2]}"))) = Ok p) by (eexists; vm_compute; reflexivity). destruct Hp as (p & Hp).
  assert (Hr : exists p', p_run [OInsert [b "a"] 0 (JScalar (b "3"))] p = Some p' /\ p_json p' = b "{""a"":[3,1,2]}" /\ P_GetNew p' [b "a"] = Ok (b "[1,2,3]")).
  { vm_compute in Hp. injection Hp as <-. eexists. split; [vm_compute; reflexivity|]. split; vm_compute; reflexivity. }
  destruct Hr as (p' & Hr & Hj & Hg).
  destruct (H (doc_of (b "{""a"":[1,2]}")) p [b "a"] 0%Z (JScalar (b "3")) p' (doc_of (b "{""a"":[3,1,2]}"))
    (JArr [] [Elem [] (JScalar (b "3")) []; Elem [] (JScalar (b "1")) []; Elem [] (JScalar (b "2")) []]) eq_refl Hp eq_refl Hr eq_refl) as (v' & Hv & Hw & Hc); try reflexivity.
  - rewrite Hj. reflexivity.
  - discriminate.
  - rewrite Hg in Hv. injection Hv as Hv. destruct v' as [s|s|w els|w ms]; try discriminate Hc.
    destruct els as [|[p1 x1 q1] els]; [discriminate Hc|]. cbn [content map e_val] in Hc. injection Hc as Hx _.
    destruct x1 as [s| | |]; try discriminate Hx. injection Hx as ->. cbn [bare] in Hv. rewrite render_arr in Hv.
    rewrite wf_arr in Hw. cbn [forallb] in Hw. unfold elem_ok in Hw. cbn [e_pre e_val e_post] in Hw. rewrite !andb_true_iff in Hw. destruct Hw as (Hw & ((Hp1 & _) & _) & _).
    cbn [map] in Hv. unfold elem_text at 1 in Hv. cbn [e_pre e_val e_post render] in Hv.
    destruct w as [|c w]; [|cbn in Hv; injection Hv as <- _; discriminate Hw].
    destruct p1 as [|c p1]; [|destruct els; cbn in Hv; injection Hv as <- _; discriminate Hp1].
    destruct els; cbn in Hv; discriminate Hv.
Qed.
Print Assumptions C47_insert_refuted.

Definition ex47 : doc := doc_of (b " { ""a"" : [ 1 , true,[ 7 ] , { } ] , ""b"":{ ""c"" : ""x"" , ""n"" : [ 1, 2 ]} } ").
Example C47_example :
  wf_doc ex47 = true /\ straight (d_val ex47) [b "b"; b "n"] = true /\ fits (text ex47) /\
  (exists v, lookup (d_val ex47) [b "b"; b "n"] = Some v) /\
  (exists p, Parse (text ex47) = Ok p /\
     P_GetNew p [] = Ok (b "{""a"":[ 1 , true,[ 7 ],{ }],""b"":{""c"": ""x"" ,""n"":[ 1, 2 ]}}") /\
     P_GetNew p [b "b"; b "c"] = Ok (b "x") /\ P_GetNew p [b "b"; b "d"] = Ok [] /\
     P_GetIntArray p [b "b"; b "n"] = Ok [1; 2]%Z /\ P_GetInt p [b "a"; b "0"] = Ok 1%Z /\ P_GetBool p [b "a"; b "1"] = Ok true /\
     P_GetInt p [b "b"; b "d"] = Err (EKeyNotFound (b "d"))) /\
  p_lawful false ex47 [OAdd [b "b"; b "n"] (JScalar (b "3"))]
    (DObj [(b "a", DArr [DScalar (b "1"); DScalar (b "true"); DArr [DScalar (b "7")]; DObj []]);
           (b "b", DObj [(b "c", DString (b "x")); (b "n", DArr [DScalar (b "1"); DScalar (b "2"); DScalar (b "3")])])]) /\
  (exists p p', Parse (text ex47) = Ok p /\ p_run [OAdd [b "b"; b "n"] (JScalar (b "3"))] p = Some p' /\
     P_GetNew p' [b "b"] = Ok (b "{""c"": ""x"" ,""n"":[ 1, 2 ,3]}") /\
     P_GetNew p' [] = Ok (b "{""a"":[ 1 , true,[ 7 ],{ }],""b"":{""c"": ""x"" ,""n"":[ 1, 2 ,3]}}")) /\
  (* on bytes that are no document GetNew can panic *)
  (exists p, Parse (b "{""a"":1,""b"":2") = Ok p /\ P_GetNew p [] = Panic).
Proof.
  split; [vm_compute; reflexivity|]. split; [vm_compute; reflexivity|]. split; [vm_compute; discriminate|].
  split; [eexists; vm_compute; reflexivity|]. split.
  - eexists. split; [vm_compute; reflexivity|]. repeat split; vm_compute; reflexivity.
  - split; [|split].
    + eapply PL_do.
      * reflexivity.
      * split; [reflexivity|]. split; [reflexivity|]. split; [discriminate|]. eexists _, _. split; reflexivity.
      * reflexivity.
      * intros d' _ _ Hc. match goal with |- p_lawful _ _ _ ?c => replace c with (content (d_val d')) by (rewrite Hc; vm_compute; reflexivity) end. apply PL_nil.
    + eexists _, _. split; [vm_compute; reflexivity|]. split; [vm_compute; reflexivity|]. split; vm_compute; reflexivity.
    + eexists. split; vm_compute; reflexivity.
Qed.

(** ** C48

    Full statement: Tree prints one line for each value inside the document, in the order of the text, showing its depth
    and label; TreeFull adds the text.  False for the element of an array of one scalar or string, which gets no node. *)
Definition C48_statement : Prop := forall d p, wf_doc d = true -> Parse (text d) = Ok p ->
  exists l, P_Tree p = concat (map short_line l) /\
    forall q v, q <> [] -> lookup (d_val d) q = Some v -> spelled (d_val d) q = true -> exists t, In (q, t) l.

Theorem C48_tree_partial : forall d p, wf_doc d = true -> Parse (text d) = Ok p ->
  P_Tree p = concat (map short_line (inside (d_val d))) /\
  P_TreeFull p = concat (map (full_line RuneCountInString) (inside (d_val d))).
Proof. exact parse_tree. Qed.
Print Assumptions C48_tree_partial.

(** What is listed: every value a straight path leads to, with its text and the blanks around it ... *)
Theorem C48_all : forall v q x, wf v = true -> q <> [] -> straight v q = true -> lookup v q = Some x ->
  exists t, In (q, t) (inside v) /\ exists u w, ws_ok u = true /\ ws_ok w = true /\ t = u ++ render x ++ w.
Proof. exact listed_all. Qed.
Print Assumptions C48_all.

(** ... and nothing else, and nothing twice. *)
Theorem C48_only : forall v q t, wf v = true -> fits (render v) -> no_lonely v = true -> single_keys v = true -> In (q, t) (inside v) ->
  q <> [] /\ straight v q = true /\
  exists x, lookup v q = Some x /\ exists u w, ws_ok u = true /\ ws_ok w = true /\ t = u ++ render x ++ w.
Proof. exact listed_only. Qed.
Print Assumptions C48_only.
Theorem C48_once : forall v, single_keys v = true -> NoDup (map fst (inside v)).
Proof. exact listed_once. Qed.
Print Assumptions C48_once.

(** The label is filled up to six characters; a text in UTF-8 has as many runes as characters. *)
Theorem C48_width : forall cs, Forall character cs -> RuneCountInString (concat (map utf8 cs)) = length cs.
Proof. exact runes_are_characters. Qed.
Print Assumptions C48_width.

(** On any bytes: what begins with a character has one rune more than the rest, and so has what does not. *)
Theorem C48_width_any : RuneCountInString [] = 0%nat /\
  (forall c r, character c -> RuneCountInString (utf8 c ++ r) = S (RuneCountInString r)) /\
  (forall x r, (forall c r', character c -> x :: r <> utf8 c ++ r') -> RuneCountInString (x :: r) = S (RuneCountInString r)).
Proof. exact (conj eq_refl (conj a_character_is_a_rune a_stray_byte_is_a_rune)). Qed.
Print Assumptions C48_width_any.

Theorem C48_tree_refuted : ~ C48_statement.
Proof.
  intro H. assert (Hp : exists p, Parse (text (doc_of (b "[5]"))) = Ok p /\ P_Tree p = []) by (eexists; split; vm_compute; reflexivity).
  destruct Hp as (p & Hp & Ht). destruct (H (doc_of (b "[5]")) p eq_refl Hp) as (l & Hl & Hall).
  destruct (Hall [b "0"] (JScalar (b "5"))) as (t & Hin); [discriminate|reflexivity|reflexivity|].
  rewrite Ht in Hl. apply in_split in Hin. destruct Hin as (l1 & l2 & ->). rewrite map_app, concat_app in Hl. cbn [map concat] in Hl.
  symmetry in Hl. apply app_eq_nil in Hl. destruct Hl as [_ Hl]. apply app_eq_nil in Hl. destruct Hl as [Hl _]. discriminate Hl.
Qed.
Print Assumptions C48_tree_refuted.

Definition ex48 : doc := doc_of (b "{""a"": {""b"" : 1 ,""long_key"":[ 2,""x""]}, ""c"":null}").
Example C48_example :
  wf_doc ex48 = true /\ no_lonely (d_val ex48) = true /\ single_keys (d_val ex48) = true /\ fits (text ex48) /\
  map fst (inside (d_val ex48)) =
    [[b "a"]; [b "a"; b "b"]; [b "a"; b "long_key"]; [b "a"; b "long_key"; b "0"]; [b "a"; b "long_key"; b "1"]; [b "c"]] /\
  (exists p, Parse (text ex48) = Ok p /\
     P_Tree p = dash ++ b " a" ++ [10; 9] ++ corner ++ b "  b" ++ [10; 9] ++ corner ++ b "  long_key" ++ [10; 9; 9] ++ corner ++ b "  0" ++
                [10; 9; 9] ++ corner ++ b "  1" ++ [10] ++ dash ++ b " c" ++ [10] /\
     P_TreeFull p = dash ++ b " a      : {""b"" : 1 ,""long_key"":[ 2,""x""]}" ++ [10; 9] ++ corner ++ b "  b      :  1 " ++ [10; 9] ++
                corner ++ b "  long_key : [ 2,""x""]" ++ [10; 9; 9] ++ corner ++ b "  0      :  2" ++
                [10; 9; 9] ++ corner ++ b "  1      : ""x""" ++ [10] ++ dash ++ b " c      : null" ++ [10]) /\
  RuneCountInString (concat (map utf8 [97; 233; 8364; 128512])) = 4%nat /\ RuneCountInString [226; 130; 65; 255] = 4%nat.
Proof.
  split; [vm_compute; reflexivity|]. split; [vm_compute; reflexivity|]. split; [vm_compute; reflexivity|]. split; [vm_compute; discriminate|].
  split; [vm_compute; reflexivity|]. split; [|vm_compute; split; reflexivity].
  eexists. split; [vm_compute; reflexivity|]. split; vm_compute; reflexivity.
Qed.
