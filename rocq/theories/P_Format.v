(** Properties C20 and C21: Flatten and Indent. *)
From Coq Require Import String.
From Verif Require Import GoStd Json SpecFormat Parse Core Format FormatProofs.

Local Open Scope N_scope.

(** ** C20 *)
Theorem C20_flatten_removes_insignificant_whitespace : forall d,
  wf_doc d = true -> Flatten (text d) = render (strip (d_val d)).
Proof. exact flatten_doc. Qed.
Print Assumptions C20_flatten_removes_insignificant_whitespace.

Theorem C20_content_is_kept : forall v,
  content (strip v) = content v /\ (wf v = true -> wf (strip v) = true).
Proof. exact (fun v => conj (strip_content v) (strip_wf v)). Qed.
Print Assumptions C20_content_is_kept.

Theorem C20_same_content_same_text : forall d d',
  wf_doc d = true -> wf_doc d' = true -> content (d_val d) = content (d_val d') -> Flatten (text d) = Flatten (text d').
Proof. exact flatten_same. Qed.
Print Assumptions C20_same_content_same_text.

Theorem C20_flatten_is_idempotent : forall json, Flatten (Flatten json) = Flatten json.
Proof. exact (fun json => flatten_idem json false). Qed.
Print Assumptions C20_flatten_is_idempotent.

Theorem C20_flatten_never_lengthens : forall json, (length (Flatten json) <= length json)%nat.
Proof. exact (fun json => flatten_len json false). Qed.
Print Assumptions C20_flatten_never_lengthens.

Theorem C20_flatten_keeps_every_other_byte : forall json,
  filter (fun c => negb (is_ws c)) (Flatten json) = filter (fun c => negb (is_ws c)) json.
Proof. exact (fun json => flatten_keeps json false). Qed.
Print Assumptions C20_flatten_keeps_every_other_byte.

Definition ex20 : bytes := [9; 10] ++ b "{ ""a b\"" ""  : [ 1 ,"" , \\"" , { } ,[ [ ] ]], ""\\ "" :true } " ++ [13].
Example C20_example :
  let d := doc_of ex20 in
  wf_doc d = true /\ text d = ex20 /\
  Flatten ex20 = b "{""a b\"" "":[1,"" , \\"",{},[[]]],""\\ "":true}" /\
  Flatten (b " "" x \") = b """ x \" /\ Flatten (b " "" x \  ") = b """ x \  ".
Proof. vm_compute. repeat split. Qed.

(** ** C21

    Full statement: false when the root is a string (panic) or when a key or string ends in an escaped
    backslash, see [C21_indent_refuted]; those are the missing cases. *)
Definition C21_statement : Prop := forall d,
  wf_doc d = true -> exists out, Indent (text d) = Ok out /\ Flatten out = Flatten (text d).

Theorem C21_indent_partial : forall d,
  wf_doc d = true -> calm (d_val d) = true -> (forall s, d_val d <> JString s) ->
  exists out, Indent (text d) = Ok out /\ Flatten out = Flatten (text d).
Proof. exact indent_flatten. Qed.
Print Assumptions C21_indent_partial.

Theorem C21_indent_layout_partial : forall d,
  wf_doc d = true -> calm (d_val d) = true -> (forall s, d_val d <> JString s) ->
  Indent (text d) = Ok (render (pretty 0 (d_val d))).
Proof. exact indent_doc. Qed.
Print Assumptions C21_indent_layout_partial.

Theorem C21_layout_keeps_content : forall n v,
  content (pretty n v) = content v /\ (wf v = true -> wf (pretty n v) = true).
Proof. exact (fun n v => conj (pretty_content v n) (pretty_wf v n)). Qed.
Print Assumptions C21_layout_keeps_content.

(** On every byte string, document or not: nothing but blanks is inserted or dropped. *)
Theorem C21_indent_keeps_every_other_byte : forall json out, Indent json = Ok out ->
  filter (fun c => negb (is_ws c)) out = filter (fun c => negb (is_ws c)) json.
Proof. exact indent_keeps. Qed.
Print Assumptions C21_indent_keeps_every_other_byte.

(** It panics exactly when the text begins with a quote or a bracket is closed that was not opened. *)
Theorem C21_indent_panics_exactly : forall json,
  (Indent json = Panic <-> (exists r, Flatten json = 34 :: r) \/ exists t u, Flatten json = t ++ u /\ (nesting 0 false t < 0)%Z) /\
  (Indent json <> Panic -> exists out, Indent json = Ok out).
Proof. exact indent_panics. Qed.
Print Assumptions C21_indent_panics_exactly.

(** Unless a quote follows an escaped backslash or a backslash stands outside of quotes, Flatten undoes it, and doing it
    twice is doing it once. *)
Theorem C21_flatten_undoes_indent : forall json out, tame false json = true -> Indent json = Ok out ->
  Flatten out = Flatten json /\ Indent out = Ok out.
Proof. exact (fun json out Ht H => conj (indent_flatten_bytes json out Ht H) (indent_idem json out Ht H)). Qed.
Print Assumptions C21_flatten_undoes_indent.

Theorem C21_indent_ignores_whitespace : forall json, Indent (Flatten json) = Indent json.
Proof. exact indent_of_flatten. Qed.
Print Assumptions C21_indent_ignores_whitespace.

Theorem C21_indent_refuted :
  ~ C21_statement /\ Indent (b """a""") = Panic /\
  Indent (b "[""\\"",""a,b""]") = Ok (b "[" ++ [10; 9] ++ b """\\"",""a," ++ [10; 9] ++ b "b""]").
Proof.
  split; [|vm_compute; repeat split]. intro H.
  destruct (H (doc_of (b """a""")) eq_refl) as (out & Ho & _). vm_compute in Ho. discriminate Ho.
Qed.
Print Assumptions C21_indent_refuted.

Definition ex21 : bytes := b "{""a\"","" : [1,[],{""b"":""x:[\\y""}] ,""c"": true}".
Example C21_example :
  let d := doc_of ex21 in
  wf_doc d = true /\ text d = ex21 /\ calm (d_val d) = true /\ (forall s, d_val d <> JString s) /\
  Indent ex21 = Ok (b "{" ++ [10; 9] ++ b """a\"","": [" ++ [10; 9; 9] ++ b "1," ++ [10; 9; 9] ++ b "[" ++ [10; 9; 9; 9; 10; 9; 9] ++
     b "]," ++ [10; 9; 9] ++ b "{" ++ [10; 9; 9; 9] ++ b """b"": ""x:[\\y""" ++ [10; 9; 9] ++ b "}" ++ [10; 9] ++ b "]," ++ [10; 9] ++
     b """c"": true" ++ [10] ++ b "}") /\
  Indent (b " 5 ") = Ok (b "5").
Proof. vm_compute. repeat split. discriminate. Qed.

(** Texts that are not documents: an open string, brackets closed in excess, a backslash outside of quotes. *)
Example C21_bytes_example :
  tame false (b "[1 ,{] ""a\"", ") = true /\
  Indent (b "[1 ,{] ""a\"", ") = Ok (b "[" ++ [10; 9] ++ b "1," ++ [10; 9] ++ b "{" ++ [10; 9; 9; 10; 9] ++ b "]""a\"", ") /\
  Indent (b "1]2") = Panic /\ (nesting 0 false (b "1]") = -1)%Z /\ Indent (b """") = Panic /\
  tame false (b "1\ 2") = false /\ Indent (b "1\ 2") = Ok (b "1\2") /\ Flatten (b "1\ 2") = b "1\ 2".
Proof. vm_compute. repeat split. Qed.
