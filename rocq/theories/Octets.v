(** What an update returns is made of bytes. *)
From Coq Require Import String.
From Verif Require Import GoStd Errors Core Api Parser Ops AsWritten.

Local Open Scope N_scope.

Definition keeps (r : upd) : Prop := match r with Done out => octets out | Fail out _ => octets (odef out) | UPanic => True end.
Lemma octets_app x y : octets x -> octets y -> octets (x ++ y).
Proof. intros. apply Forall_app. split; assumption. Qed.
Lemma octets_part (x : bytes) k : octets x -> octets (firstn k x) /\ octets (skipn k x).
Proof. intro H. unfold octets in H. rewrite <- (firstn_skipn k x) in H. apply Forall_app in H. exact H. Qed.
Lemma keeps_replace json new s e : octets json -> octets new -> keeps (done_replace json new s e).
Proof.
  intros Hj Hn. unfold done_replace, replace. destruct (_ && _)%bool; cbn [pbind keeps]; [|exact I].
  apply octets_app; [apply octets_part; exact Hj|]. apply octets_app; [exact Hn|apply octets_part; exact Hj].
Qed.
Lemma keeps_ubind {A} json (r : res A) k : octets json -> (forall a, keeps (k a)) -> keeps (ubind json r k).
Proof. intros Hj H. destruct r; cbn; [apply H|exact Hj|exact I]. Qed.
Lemma keeps_pbind {A} (r : res A) k : (forall a, keeps (k a)) -> keeps (pbind r k).
Proof. intros H. destruct r; cbn; [apply H|exact I|exact I]. Qed.
Lemma keeps_fail o e : octets o -> keeps (Fail (Some o) e). Proof. intro H. exact H. Qed.
Lemma keeps_panic : keeps UPanic. Proof. exact I. Qed.
Lemma octets_nil : octets []. Proof. constructor. Qed.
Lemma octets_cons c x : (c <? 256) = true -> octets x -> octets (c :: x). Proof. intros Hc Hx. constructor; [apply N.ltb_lt; exact Hc|exact Hx]. Qed.
Ltac oct := repeat first [assumption | apply octets_nil | apply octets_cons; [reflexivity|] | apply octets_app].
Ltac keep := repeat first [ apply keeps_fail; assumption | apply keeps_panic | apply keeps_replace; [assumption|oct] | apply keeps_ubind; [assumption|intros] | apply keeps_pbind; intros
  | match goal with |- keeps (match ?x with _ => _ end) => destruct x end | cbv zeta ].
Lemma keeps_span json new s e : octets json -> octets new -> keeps (set_span json new s e).
Proof. intros. unfold set_span. keep. Qed.
Lemma keeps_set json new path : octets json -> octets new -> keeps (Set_ json new path).
Proof. intros. unfold Set_. keep; apply keeps_span; assumption. Qed.
Lemma keeps_set_key json key path : octets json -> octets key -> keeps (SetKey json key path).
Proof. intros. unfold SetKey. keep. Qed.
Lemma keeps_delete json path : octets json -> keeps (Delete json path).
Proof. intros. unfold Delete. keep. Qed.
Lemma keeps_add json value path : octets json -> octets value -> keeps (Add_ json value path).
Proof. intros. unfold Add_. keep. Qed.
Lemma keeps_add_kv json key value path : octets json -> octets key -> octets value -> keeps (AddKeyValue json key (Some value) path).
Proof. intros. unfold AddKeyValue. keep. Qed.
Lemma keeps_insert json index value path : octets json -> octets value -> keeps (Insert json index value path).
Proof. intros. unfold Insert. keep. Qed.
Lemma keeps_store json key value path : octets json -> octets key -> octets value -> keeps (Store json key (Some value) path).
Proof. intros. unfold Store. keep; try (apply keeps_span; assumption). apply keeps_add_kv; assumption. Qed.
Lemma keeps_call o json : octets json -> op_octets o -> keeps (Ops.call o json).
Proof.
  intros Hj Ho. destruct o; cbn [Ops.call op_octets] in *; try match type of Ho with _ /\ _ => destruct Ho end; [apply keeps_set|apply keeps_delete|apply keeps_add|apply keeps_add_kv|apply keeps_insert|apply keeps_set_key|apply keeps_store]; assumption.
Qed.
