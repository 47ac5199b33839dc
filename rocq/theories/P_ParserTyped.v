(** Property C53: the typed writers of the Parser and the typed readers. *)
From Coq Require Import String.
From Verif Require Import GoStd Json Spec SpecProofs Parse Focus Domains Core Errors Api Rfc RfcProofs Ops History Iter Typed TypedProofs SpecNumber GoFloat FloatProofs FloatApi
  SpecParser Parser ParserProofs ParserGet ParserOps ParserInsert ParserTyped.

Local Open Scope N_scope.

(** ** C53

    Full statement, for AddInt and SetString: right after Parse, the value written is there and is read back.  False:
    AddInt into an array of one number ([C53_add_int_refuted]) and at an empty root array; SetString of the empty text,
    and of a text that ends with an escaped quote ([C53_set_string_refuted]). *)
Definition C53_statement : Prop := forall d p z s q, wf_doc d = true -> Parse (text d) = Ok p -> in_int64 z = true -> str_ok s = true ->
  (forall w els, lookup (d_val d) q = Some (JArr w els) ->
     exists p2, P_AddInt p z q = PRet p2 None /\ P_GetInt p2 (q ++ [itoa (Z.of_nat (length els))]) = Ok z) /\
  (forall v, lookup (d_val d) q = Some v -> q <> [] -> straight (d_val d) q = true ->
     exists p2, P_SetString p s q = PRet p2 None /\ P_GetString p2 q = Ok s).

(** The theorems: Parse, then any calls [ops] that keep the parser right (C30), then the writer.  None of them fails, the text
    is the one the functions of the package make ([after]), and both the reader of the Parser and the one of the package
    find the value.  The path of the value must be [straight] in the new document. *)

Theorem C53_set_int_partial : forall d ops c' q z, wf_doc d = true -> container (d_val d) = true -> in_int64 z = true ->
  p_lawful true d (ops ++ [OSet q (JScalar (itoa z))]) c' -> straight_in c' q = true ->
  after d ops (OSet q (JScalar (itoa z))) (fun p => P_SetInt p z q) (fun p => P_GetInt p q = Ok z /\ GetInt (p_json p) q = Ok z).
Proof. exact (fun d ops c' q z Hw Hc => p_set_int d ops c' q z (conj Hw Hc)). Qed.
Print Assumptions C53_set_int_partial.

Theorem C53_add_key_value_int_partial : forall d ops c' q k z, wf_doc d = true -> container (d_val d) = true -> in_int64 z = true ->
  p_lawful true d (ops ++ [OAddKV q k (JScalar (itoa z))]) c' -> straight_in c' (q ++ [k]) = true ->
  after d ops (OAddKV q k (JScalar (itoa z))) (fun p => P_AddKeyValueInt p k z q) (fun p => P_GetInt p (q ++ [k]) = Ok z /\ GetInt (p_json p) (q ++ [k]) = Ok z).
Proof. exact (fun d ops c' q k z Hw Hc => p_add_kv_int d ops c' q k z (conj Hw Hc)). Qed.
Print Assumptions C53_add_key_value_int_partial.

Theorem C53_add_int_partial : forall d ops c' q l x z, wf_doc d = true -> container (d_val d) = true -> in_int64 z = true -> p_lawful true d (ops ++ [OAdd q (JScalar (itoa z))]) c' ->
  d_lookup c' q = Some (DArr (l ++ [x])) -> in_int64 (Z.of_nat (length l)) = true ->
  let t := q ++ [itoa (Z.of_nat (length l))] in straight_in c' t = true ->
  after d ops (OAdd q (JScalar (itoa z))) (fun p => P_AddInt p z q) (fun p => P_GetInt p t = Ok z /\ GetInt (p_json p) t = Ok z).
Proof. exact (fun d ops c' q l x z Hw Hc => p_add_int d ops c' q l x z (conj Hw Hc)). Qed.
Print Assumptions C53_add_int_partial.

Theorem C53_insert_int_partial : forall d ops c' q i z, wf_doc d = true -> container (d_val d) = true -> in_int64 z = true -> p_lawful true d (ops ++ [OInsert q i (JScalar (itoa z))]) c' ->
  straight_in c' (q ++ [itoa i]) = true ->
  after d ops (OInsert q i (JScalar (itoa z))) (fun p => P_InsertInt p i z q) (fun p => P_GetInt p (q ++ [itoa i]) = Ok z /\ GetInt (p_json p) (q ++ [itoa i]) = Ok z).
Proof. exact (fun d ops c' q i z Hw Hc => p_insert_int d ops c' q i z (conj Hw Hc)). Qed.
Print Assumptions C53_insert_int_partial.

Theorem C53_set_bool_partial : forall d ops c' q v, wf_doc d = true -> container (d_val d) = true ->
  p_lawful true d (ops ++ [OSet q (JScalar (bool_text v))]) c' -> straight_in c' q = true ->
  after d ops (OSet q (JScalar (bool_text v))) (fun p => P_SetBool p v q) (fun p => P_GetBool p q = Ok v /\ GetBool (p_json p) q = Ok v).
Proof. exact (fun d ops c' q v Hw Hc => p_set_bool d ops c' q v (conj Hw Hc)). Qed.
Print Assumptions C53_set_bool_partial.

Theorem C53_add_key_value_bool_partial : forall d ops c' q k v, wf_doc d = true -> container (d_val d) = true ->
  p_lawful true d (ops ++ [OAddKV q k (JScalar (bool_text v))]) c' -> straight_in c' (q ++ [k]) = true ->
  after d ops (OAddKV q k (JScalar (bool_text v))) (fun p => P_AddKeyValueBool p k v q) (fun p => P_GetBool p (q ++ [k]) = Ok v /\ GetBool (p_json p) (q ++ [k]) = Ok v).
Proof. exact (fun d ops c' q k v Hw Hc => p_add_kv_bool d ops c' q k v (conj Hw Hc)). Qed.
Print Assumptions C53_add_key_value_bool_partial.

Theorem C53_add_bool_partial : forall d ops c' q l x v, wf_doc d = true -> container (d_val d) = true -> p_lawful true d (ops ++ [OAdd q (JScalar (bool_text v))]) c' ->
  d_lookup c' q = Some (DArr (l ++ [x])) -> in_int64 (Z.of_nat (length l)) = true ->
  let t := q ++ [itoa (Z.of_nat (length l))] in straight_in c' t = true ->
  after d ops (OAdd q (JScalar (bool_text v))) (fun p => P_AddBool p v q) (fun p => P_GetBool p t = Ok v /\ GetBool (p_json p) t = Ok v).
Proof. exact (fun d ops c' q l x v Hw Hc => p_add_bool d ops c' q l x v (conj Hw Hc)). Qed.
Print Assumptions C53_add_bool_partial.

Theorem C53_insert_bool_partial : forall d ops c' q i v, wf_doc d = true -> container (d_val d) = true -> p_lawful true d (ops ++ [OInsert q i (JScalar (bool_text v))]) c' ->
  straight_in c' (q ++ [itoa i]) = true ->
  after d ops (OInsert q i (JScalar (bool_text v))) (fun p => P_InsertBool p i v q) (fun p => P_GetBool p (q ++ [itoa i]) = Ok v /\ GetBool (p_json p) (q ++ [itoa i]) = Ok v).
Proof. exact (fun d ops c' q i v Hw Hc => p_insert_bool d ops c' q i v (conj Hw Hc)). Qed.
Print Assumptions C53_insert_bool_partial.

Theorem C53_set_float_partial : forall d ops c' q x t, wf_doc d = true -> container (d_val d) = true -> formats x t ->
  p_lawful true d (ops ++ [OSet q (JScalar t)]) c' -> straight_in c' q = true ->
  after d ops (OSet q (JScalar t)) (fun p => P_SetFloat p t q) (fun p => P_GetFloat ParseFloat p q = Ok x /\ GetFloat ParseFloat (p_json p) q = Ok x).
Proof. exact (fun d ops c' q x t Hw Hc => p_set_float d ops c' q x t (conj Hw Hc)). Qed.
Print Assumptions C53_set_float_partial.

Theorem C53_add_key_value_float_partial : forall d ops c' q k x t, wf_doc d = true -> container (d_val d) = true -> formats x t ->
  p_lawful true d (ops ++ [OAddKV q k (JScalar t)]) c' -> straight_in c' (q ++ [k]) = true ->
  after d ops (OAddKV q k (JScalar t)) (fun p => P_AddKeyValueFloat p k t q)
    (fun p => P_GetFloat ParseFloat p (q ++ [k]) = Ok x /\ GetFloat ParseFloat (p_json p) (q ++ [k]) = Ok x).
Proof. exact (fun d ops c' q k x t Hw Hc => p_add_kv_float d ops c' q k x t (conj Hw Hc)). Qed.
Print Assumptions C53_add_key_value_float_partial.

Theorem C53_add_float_partial : forall d ops c' q l y x t, wf_doc d = true -> container (d_val d) = true -> formats x t -> p_lawful true d (ops ++ [OAdd q (JScalar t)]) c' ->
  d_lookup c' q = Some (DArr (l ++ [y])) -> in_int64 (Z.of_nat (length l)) = true ->
  let r := q ++ [itoa (Z.of_nat (length l))] in straight_in c' r = true ->
  after d ops (OAdd q (JScalar t)) (fun p => P_AddFloat p t q) (fun p => P_GetFloat ParseFloat p r = Ok x /\ GetFloat ParseFloat (p_json p) r = Ok x).
Proof. exact (fun d ops c' q l y x t Hw Hc => p_add_float d ops c' q l y x t (conj Hw Hc)). Qed.
Print Assumptions C53_add_float_partial.

Theorem C53_insert_float_partial : forall d ops c' q i x t, wf_doc d = true -> container (d_val d) = true -> formats x t -> p_lawful true d (ops ++ [OInsert q i (JScalar t)]) c' ->
  straight_in c' (q ++ [itoa i]) = true ->
  after d ops (OInsert q i (JScalar t)) (fun p => P_InsertFloat p i t q)
    (fun p => P_GetFloat ParseFloat p (q ++ [itoa i]) = Ok x /\ GetFloat ParseFloat (p_json p) (q ++ [itoa i]) = Ok x).
Proof. exact (fun d ops c' q i x t Hw Hc => p_insert_float d ops c' q i x t (conj Hw Hc)). Qed.
Print Assumptions C53_insert_float_partial.

(** SetString puts quotes around every text that has no quote at an end. *)
Theorem C53_set_string_partial : forall d ops c' q s, wf_doc d = true -> container (d_val d) = true -> s <> [] -> str_ok s = true -> last s 0 <> 34 ->
  p_lawful true d (ops ++ [OSet q (JString s)]) c' -> straight_in c' q = true ->
  after d ops (OSet q (JString s)) (fun p => P_SetString p s q) (fun p => P_GetString p q = Ok s /\ GetString (p_json p) q = Ok s).
Proof. exact (fun d ops c' q s Hw Hc => p_set_string d ops c' q s (conj Hw Hc)). Qed.
Print Assumptions C53_set_string_partial.

(** The others ask formatType: the text goes out as a number, a literal or a string ([C41]: every text of a string that
    is not fenced in braces has such a [v]). *)
Theorem C53_add_key_value_string_partial : forall d ops c' q k s v, wf_doc d = true -> container (d_val d) = true -> simple v s -> formatType float_ok s = render v ->
  p_lawful true d (ops ++ [OAddKV q k v]) c' -> straight_in c' (q ++ [k]) = true ->
  after d ops (OAddKV q k v) (fun p => P_AddKeyValueString float_ok p k s q)
    (fun p => P_GetString p (q ++ [k]) = Ok s /\ GetString (p_json p) (q ++ [k]) = Ok s).
Proof. exact (fun d ops c' q k s v Hw Hc => p_add_kv_string d ops c' q k s v (conj Hw Hc)). Qed.
Print Assumptions C53_add_key_value_string_partial.

Theorem C53_add_string_partial : forall d ops c' q l x s v, wf_doc d = true -> container (d_val d) = true -> simple v s -> formatType float_ok s = render v ->
  p_lawful true d (ops ++ [OAdd q v]) c' -> d_lookup c' q = Some (DArr (l ++ [x])) -> in_int64 (Z.of_nat (length l)) = true ->
  let t := q ++ [itoa (Z.of_nat (length l))] in straight_in c' t = true ->
  after d ops (OAdd q v) (fun p => P_AddString float_ok p s q) (fun p => P_GetString p t = Ok s /\ GetString (p_json p) t = Ok s).
Proof. exact (fun d ops c' q l x s v Hw Hc => p_add_string d ops c' q l x s v (conj Hw Hc)). Qed.
Print Assumptions C53_add_string_partial.

Theorem C53_insert_string_partial : forall d ops c' q i s v, wf_doc d = true -> container (d_val d) = true -> simple v s -> formatType float_ok s = render v ->
  p_lawful true d (ops ++ [OInsert q i v]) c' -> straight_in c' (q ++ [itoa i]) = true ->
  after d ops (OInsert q i v) (fun p => P_InsertString float_ok p i s q)
    (fun p => P_GetString p (q ++ [itoa i]) = Ok s /\ GetString (p_json p) (q ++ [itoa i]) = Ok s).
Proof. exact (fun d ops c' q i s v Hw Hc => p_insert_string d ops c' q i s v (conj Hw Hc)). Qed.
Print Assumptions C53_insert_string_partial.

(** An array of one number gets no node for it; the added one is labelled "0". *)
Theorem C53_add_int_refuted : ~ C53_statement.
Proof.
  intro H. destruct (Parse (b "[5]")) as [p| |] eqn:E; try (vm_compute in E; discriminate E).
  destruct (H (doc_of (b "[5]")) p 7%Z (b "x") [] eq_refl E eq_refl eq_refl) as [Ha _]. destruct (Ha _ _ eq_refl) as (p2 & G & R).
  vm_compute in E. injection E as <-. vm_compute in G. injection G as <-. vm_compute in R. discriminate R.
Qed.
Print Assumptions C53_add_int_refuted.

Definition ex53_text (r : pres) : option (bytes * option err) := match r with PRet p e => Some (p_json p, e) | PPanic => None end.
Definition ex53_on (json : bytes) (f : parser -> pres) : pres := match Parse json with Ok p => f p | _ => PPanic end.

(** SetString does not quote a text that ends with an escaped quote, and panics on the empty one; the text of a number is
    quoted, where the function of the package leaves it a number. *)
Theorem C53_set_string_refuted :
  ~ C53_statement /\
  str_ok (b "say \""hi\""") = true /\
  ex53_text (ex53_on (b "[1,2]") (fun p => P_SetString p (b "say \""hi\""") [b "0"])) = Some (b "[say \""hi\"",2]", None) /\
  valid (b "[say \""hi\"",2]") = false /\
  ex53_text (ex53_on (b "[1,2]") (fun p => P_SetString p [] [b "0"])) = None /\
  ex53_text (ex53_on (b "[1,2]") (fun p => P_SetString p (b "5") [b "0"])) = Some (b "[""5"",2]", None) /\
  SetString float_ok (b "[1,2]") (b "5") [b "0"] = Done (b "[5,2]").
Proof.
  split; [|vm_compute; repeat split]. intro H. destruct (Parse (b "[1,2]")) as [p| |] eqn:E; try (vm_compute in E; discriminate E).
  destruct (H (doc_of (b "[1,2]")) p 0%Z [] [b "0"] eq_refl E eq_refl eq_refl) as [_ Hs].
  destruct (Hs _ eq_refl ltac:(discriminate) eq_refl) as (p2 & G & _). discriminate G.
Qed.
Print Assumptions C53_set_string_refuted.

(** At an empty root array the text is broken. *)
Theorem C53_add_root_refuted : ~ C53_statement /\
  ex53_text (ex53_on (b "[]") (fun p => P_AddInt p 5 [])) = Some (b "[,5]", None) /\ valid (b "[,5]") = false /\
  ex53_text (ex53_on (b "{}") (fun p => P_AddKeyValueBool p (b "k") true [])) = Some (b "{,""k"":true}", None).
Proof. split; [exact C53_add_int_refuted|vm_compute; repeat split]. Qed.
Print Assumptions C53_add_root_refuted.

(** What the typed writers refuse, on every parser: a negative index and an empty key.  The parser is as it was. *)
Theorem C53_negative_index : forall pf p i z v t q, (i < 0)%Z ->
  P_InsertInt p i z q = PRet p (Some EIndexOutOfRange) /\ P_InsertBool p i v q = PRet p (Some EIndexOutOfRange) /\
  P_InsertFloat p i t q = PRet p (Some EIndexOutOfRange) /\ P_InsertString pf p i t q = PRet p (Some EIndexOutOfRange).
Proof. exact negative_index. Qed.
Print Assumptions C53_negative_index.
Theorem C53_empty_key : forall pf p z v t q,
  P_AddKeyValueInt p [] z q = PRet p (Some ENullKey) /\ P_AddKeyValueBool p [] v q = PRet p (Some ENullKey) /\
  P_AddKeyValueFloat p [] t q = PRet p (Some ENullKey) /\ P_AddKeyValueString pf p [] t q = PRet p (Some ENullKey).
Proof. exact empty_key. Qed.
Print Assumptions C53_empty_key.

Definition ex53 : doc := doc_of (b "{ ""a"" : [1, 2 ], ""b"" :{""c"":null } }").
Definition ex53_c (a : list jd) (m : list (bytes * jd)) : jd := DObj [(b "a", DArr a); (b "b", DObj ((b "c", DScalar (b "null")) :: m))].
Example C53_example :
  wf_doc ex53 = true /\ container (d_val ex53) = true /\ in_int64 (-40) = true /\
  (exists c', p_lawful true ex53 ([] ++ [OSet [b "a"; b "1"] (JScalar (itoa (-40)))]) c' /\ straight_in c' [b "a"; b "1"] = true) /\
  (exists c', p_lawful true ex53 ([OSet [b "a"; b "1"] (JString (b "x"))] ++ [OAdd [b "a"] (JScalar (itoa 3))]) c' /\
     d_lookup c' [b "a"] = Some (DArr ([DScalar (b "1"); DString (b "x")] ++ [DScalar (b "3")])) /\ straight_in c' [b "a"; b "2"] = true) /\
  (exists c', p_lawful true ex53 ([] ++ [OAddKV [b "b"] (b "d") (JScalar (bool_text true))]) c' /\ straight_in c' [b "b"; b "d"] = true) /\
  (exists c', p_lawful true ex53 ([] ++ [OInsert [b "a"] 0 (JScalar (b "0.5"))]) c' /\ straight_in c' [b "a"; b "0"] = true) /\
  formats (Fin false 4503599627370496 1021) (b "0.5") /\
  (simple (JScalar (b "-1.5e3")) (b "-1.5e3") /\ formatType float_ok (b "-1.5e3") = render (JScalar (b "-1.5e3"))) /\
  (simple (JString (b "x y")) (b "x y") /\ formatType float_ok (b "x y") = render (JString (b "x y"))) /\
  ex53_text (ex53_on (text ex53) (fun p => P_SetInt p (-40) [b "a"; b "1"])) = Some (b "{ ""a"" : [1, -40 ], ""b"" :{""c"":null } }", None) /\
  ex53_text (ex53_on (text ex53) (fun p => P_AddKeyValueFloat p (b "d") (b "0.5") [b "b"])) = Some (b "{ ""a"" : [1, 2 ], ""b"" :{""c"":null ,""d"":0.5} }", None) /\
  ex53_text (ex53_on (text ex53) (fun p => P_InsertString float_ok p 0 (b "x y") [b "a"])) = Some (b "{ ""a"" : [""x y"",1, 2 ], ""b"" :{""c"":null } }", None) /\
  ex53_text (ex53_on (text ex53) (fun p => P_InsertString float_ok p (-1) (b "x y") [b "a"])) = Some (text ex53, Some EIndexOutOfRange) /\
  ex53_text (ex53_on (text ex53) (fun p => P_AddKeyValueInt p [] 1 [b "b"])) = Some (text ex53, Some ENullKey).
Proof.
  assert (Hnil : forall i c (d : doc), content (d_val d) = c -> p_lawful i d [] c) by (intros i c d <-; apply PL_nil).
  split; [reflexivity|]. split; [reflexivity|]. split; [reflexivity|]. split; [|split; [|split; [|split; [|split; [|split; [|split]]]]]].
  - exists (ex53_c [DScalar (b "1"); DScalar (b "-40")] []). split; [|reflexivity].
    eapply PL_do; [split; [discriminate|reflexivity]|split; [reflexivity|split; [reflexivity|eexists; split; reflexivity]]|reflexivity|intros d' _ _; apply Hnil].
  - exists (ex53_c [DScalar (b "1"); DString (b "x"); DScalar (b "3")] []). split; [|split; reflexivity]. cbn [app].
    eapply PL_do with (c1 := ex53_c [DScalar (b "1"); DString (b "x")] []).
    + split; [discriminate|reflexivity].
    + split; [reflexivity|]. split; [reflexivity|]. eexists. split; reflexivity.
    + reflexivity.
    + intros d' _ _ Hc. assert (Hl : exists w els, lookup (d_val d') [b "a"] = Some (JArr w els) /\ lonely (JArr w els) = false).
      { pose proof (lookup_content (d_val d') [b "a"]) as E. rewrite Hc in E. destruct (lookup (d_val d') [b "a"]) as [v|]; [|discriminate E].
        cbn in E. injection E as E. destruct v as [| |w els|]; try discriminate E. exists w, els. split; [reflexivity|]. rewrite lonely_content, <- E. reflexivity. }
      eapply PL_do; [reflexivity| |rewrite Hc; reflexivity|intros d'' _ _; apply Hnil].
      split; [reflexivity|]. split; [rewrite straight_content, Hc; reflexivity|]. split; [discriminate|exact Hl].
  - exists (ex53_c [DScalar (b "1"); DScalar (b "2")] [(b "d", DScalar (b "true"))]). split; [|reflexivity].
    eapply PL_do; [split; [reflexivity|split; [reflexivity|left; apply seen_absent_b_sound; reflexivity]]| |reflexivity|intros d' _ _; apply Hnil].
    split; [reflexivity|]. split; [reflexivity|]. split; [discriminate|]. split; [discriminate|].
    intros q0 x u H Hl. destruct q0 as [|y [|]]; [|discriminate H|discriminate H]. vm_compute in Hl. injection Hl as <-. repeat constructor; discriminate.
  - exists (ex53_c [DScalar (b "0.5"); DScalar (b "1"); DScalar (b "2")] []). split; [|reflexivity].
    eapply PL_insert; [split; [reflexivity|split; [discriminate|eexists _, _; split; [reflexivity|left; reflexivity]]]| |reflexivity|intros d' _ _; apply Hnil].
    split; [reflexivity|]. split; [reflexivity|]. split; [discriminate|]. intros w els H. vm_compute in H. injection H as <- <-. reflexivity.
  - split; [vm_compute; reflexivity|exists (Number false (b "0") (Some (b "5")) None); repeat split].
  - split; [split; [left; reflexivity|reflexivity]|vm_compute; reflexivity].
  - split; [split; [right; reflexivity|reflexivity]|vm_compute; reflexivity].
  - vm_compute. repeat split.
Qed.
