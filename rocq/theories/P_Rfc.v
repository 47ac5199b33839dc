(** Property C42 (RFC 8259 texts stay valid), and Flatten as an equality test (C20). *)
From Coq Require Import String.
From Verif Require Import GoStd Json Spec Parse Focus Domains Core Errors Api Ops Rfc RfcProofs RfcUpdates Format SpecFormat Typed.

Local Open Scope N_scope.

(** Two documents have the same content exactly when Flatten gives the same text. *)
Theorem C20_flatten_decides_equality : forall d d', wf_doc d = true -> wf_doc d' = true ->
  (Flatten (text d) = Flatten (text d') <-> content (d_val d) = content (d_val d')).
Proof. exact flatten_iff_content. Qed.
Print Assumptions C20_flatten_decides_equality.

(** The trees used throughout cover the RFC 8259 grammar: every JSON text is the text of a well-formed document,
    namely one whose scalars are numbers or literals and whose strings are escaped. *)
Theorem C42_every_json_text_is_a_document : forall t,
  json_text t <-> exists d, wf_doc d = true /\ text d = t /\ strict (content (d_val d)) = true.
Proof. exact json_text_doc. Qed.
Print Assumptions C42_every_json_text_is_a_document.

(** A text is the text of documents of one content only. *)
Theorem C42_one_content_per_text : forall d d',
  wf_doc d = true -> wf_doc d' = true -> text d = text d' -> content (d_val d) = content (d_val d').
Proof. exact same_text_same_content. Qed.
Print Assumptions C42_one_content_per_text.

Theorem C42_get_on_json_texts : forall t, json_text t -> exists d, wf_doc d = true /\ text d = t /\
  forall p v, p <> [] -> lookup (d_val d) p = Some v -> Get t p = Ok (bare v).
Proof. exact get_json. Qed.
Print Assumptions C42_get_on_json_texts.

Theorem C42_flatten_keeps_validity : forall t, json_text t -> json_text (Flatten t).
Proof. exact flatten_json. Qed.
Print Assumptions C42_flatten_keeps_validity.

Theorem C42_set_delete_add_keep_validity : forall ops, Forall plain_op ops -> Forall strict_op ops ->
  forall d c', wf_doc d = true -> json_text (text d) -> meanings ops (content (d_val d)) = Some c' ->
  exists out, run ops (text d) = Some out /\ json_text out.
Proof. exact history_plain_json. Qed.
Print Assumptions C42_set_delete_add_keep_validity.

(** Full statement for one call of any of the seven operations; false because of C03 and C10
    ([C42_validity_refuted]).  The theorems that follow add the domain of each operation's own theorem. *)
Definition C42_statement : Prop := forall d o c1 out, wf_doc d = true -> json_text (text d) -> op_ok o -> strict_op o ->
  meaning o (content (d_val d)) = Some c1 -> call o (text d) = Done out -> json_text out.

Theorem C42_update_partial : forall d o c1, wf_doc d = true -> json_text (text d) -> legal d o -> strict_op o ->
  meaning o (content (d_val d)) = Some c1 -> exists out, call o (text d) = Done out /\ json_text out.
Proof. exact call_json. Qed.
Print Assumptions C42_update_partial.

Theorem C42_history_partial : forall d ops c', wf_doc d = true -> lawful d ops c' -> Forall strict_op ops ->
  json_text (text d) -> exists out, run ops (text d) = Some out /\ json_text out.
Proof. exact history_json. Qed.
Print Assumptions C42_history_partial.

Theorem C42_validity_refuted :
  ~ C42_statement /\ Insert (b "[1, 2]") 1 (b "9") [] = Done (b "[1,,9 2]") /\ valid (b "[1, 2]") = true /\
  valid (b "[1,,9 2]") = false.
Proof.
  split; [|vm_compute; repeat split]. intro H.
  assert (Hv : value (render (JScalar (b "9")))) by (apply V_number; reflexivity).
  assert (Ht : json_text (text (doc_of (b "[1, 2]")))) by (apply valid_spec; vm_compute; reflexivity).
  specialize (H (doc_of (b "[1, 2]")) (OInsert [] 1 (JScalar (b "9"))) _ (b "[1,,9 2]") eq_refl Ht
    (conj eq_refl eq_refl) Hv eq_refl eq_refl). apply valid_spec in H. vm_compute in H. discriminate H.
Qed.
Print Assumptions C42_validity_refuted.

Definition ex42 : bytes := [10] ++ b "{""a"": [1.5e-3, {""é\"""" : null }],""b"" :-0 } ".
Definition ex42_ops : list op :=
  [OSet [b "a"; b "1"] (JString (b "\n")); OAdd [b "a"] (JArr [] []); ODelete [] (b "b"); ODelete [b "a"] (b "0")].
Example C42_example :
  json_text ex42 /\ wf_doc (doc_of ex42) = true /\ text (doc_of ex42) = ex42 /\
  Forall plain_op ex42_ops /\ meanings ex42_ops (content (d_val (doc_of ex42))) <> None /\
  run ex42_ops ex42 = Some ([10] ++ b "{""a"": [ ""\n"",[]] } ") /\ valid ([10] ++ b "{""a"": [ ""\n"",[]] } ") = true /\
  Flatten ex42 = b "{""a"":[1.5e-3,{""é\"""":null}],""b"":-0}" /\
  valid (b "01") = false /\ valid (b "[1,]") = false /\ valid (b """\q""") = false /\ valid [34; 10; 34] = false /\ valid (b "nul") = false.
Proof.
  split; [apply valid_spec; reflexivity|]. split; [reflexivity|]. split; [reflexivity|].
  split; [repeat constructor; discriminate|]. vm_compute. repeat split; discriminate.
Qed.
Example C42_example_update :
  let d := doc_of ex42 in
  legal d (OStore [b "a"; b "1"] (b "é\""") (JScalar (b "true"))) /\
  strict_op (OStore [b "a"; b "1"] (b "é\""") (JScalar (b "true"))) /\
  call (OStore [b "a"; b "1"] (b "é\""") (JScalar (b "true"))) ex42 =
    Done ([10] ++ b "{""a"": [1.5e-3, {""é\"""" : true }],""b"" :-0 } ").
Proof.
  split; [|split].
  - cbn [legal]. split; [reflexivity|]. split; [reflexivity|]. left. vm_compute. discriminate.
  - split; [reflexivity|]. apply V_literal. reflexivity.
  - vm_compute. reflexivity.
Qed.
