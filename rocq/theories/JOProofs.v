(** The JO methods are the functions of the same name on the body. *)
From Coq Require Import String.
From Verif Require Import GoStd Json Spec Domains Core Errors Api Typed Iter Walk Ops Updates History TypedProofs JO SpecJO.

Local Open Scope N_scope.

Lemma assign_returned r : as_pair (assign r) = returned r.
Proof. destruct r as [out|[out|] e|]; reflexivity. Qed.

Lemma jo_store body key value path : JO_Store body key value path = assign (Store body key value path).
Proof.
  unfold JO_Store, Store, set_span, done_replace, pbind. destruct (core body false (path ++ [key])) as [[[k s] e]|er|]; [| |reflexivity].
  - destruct (at_pred body s) as [c|e0|]; [|reflexivity|reflexivity]. destruct (c =? 34).
    + destruct (at_ body e) as [d|e0|]; [|reflexivity|reflexivity]. cbn [bind]. destruct (d =? 34);
        match goal with |- context [replace ?a ?b ?c ?d] => destruct (replace a b c d); reflexivity end.
    + match goal with |- context [replace ?a ?b ?c ?d] => destruct (replace a b c d); reflexivity end.
  - destruct (err_equal (Some er) 8); reflexivity.
Qed.

Theorem jo_call_func pf body c : plain_store pf c -> as_pair (jo_call pf body c) = returned (func pf body c).
Proof.
  intro H. destruct c; cbn [jo_call func]; rewrite ?jo_store, ?assign_returned; try reflexivity.
  - cbn in H. unfold StoreString. rewrite H. reflexivity.
  - unfold StoreBool. destruct v; reflexivity.
Qed.

Theorem jo_run_history pf cs : Forall (plain_store pf) cs -> forall body, jo_run pf body cs = history pf body cs.
Proof.
  induction 1 as [|c cs Hc _ IH]; intro body; [reflexivity|]. cbn [jo_run history]. rewrite <- (jo_call_func pf body c Hc).
  destruct (jo_call pf body c) as [body' e|]; cbn [as_pair]; [rewrite IH; reflexivity|reflexivity].
Qed.

Lemma assign_fail body r body' e : (forall o e, r = Fail o e -> o = Some body) -> assign r = JRet body' (Some e) -> body' = body.
Proof.
  intros Hr H. destruct r as [out|o e0|]; cbn in H; [congruence| |discriminate]. rewrite (Hr _ _ eq_refl) in H. congruence.
Qed.

Theorem jo_fail pf body c body' e : keeps_body c -> jo_call pf body c = JRet body' (Some e) -> body' = body.
Proof.
  intros Hk H. destruct c; cbn [jo_call keeps_body] in *; rewrite ?jo_store in H; (eapply assign_fail; [|exact H]; clear H; intros o e0 H).
  - eapply addkv_fail; exact H.
  - eapply add_fail; exact H.
  - eapply insert_fail; exact H.
  - destruct key; [congruence|]. eapply typed_fail; [apply (T_AddKeyValueString pf n key s path)|exact H].
  - eapply typed_fail; [apply (T_AddKeyValueInt key n path)|exact H].
  - eapply typed_fail; [apply (T_AddKeyValueFloat key t path)|exact H].
  - eapply typed_fail; [apply (T_AddKeyValueBool key v path)|exact H].
  - eapply typed_fail; [apply (T_AddString pf s path)|exact H].
  - eapply typed_fail; [apply (T_AddInt n path)|exact H].
  - eapply typed_fail; [apply (T_AddFloat t path)|exact H].
  - eapply typed_fail; [apply (T_AddBool v path)|exact H].
  - eapply typed_fail; [apply (T_InsertString pf index s path Hk)|exact H].
  - eapply typed_fail; [apply (T_InsertInt index n path)|exact H].
  - eapply typed_fail; [apply (T_InsertFloat index t path)|exact H].
  - eapply typed_fail; [apply (T_InsertBool index v path)|exact H].
  - eapply store_fail; exact H.
  - eapply store_fail; exact H.
  - eapply store_fail; exact H.
  - eapply store_fail; exact H.
  - destruct v; eapply store_fail; exact H.
  - eapply set_fail; exact H.
  - eapply typed_fail; [apply (T_SetString pf s path)|exact H].
  - eapply typed_fail; [apply (T_SetInt n path)|exact H].
  - eapply typed_fail; [apply (T_SetFloat t path)|exact H].
  - eapply typed_fail; [apply (T_SetBool v path)|exact H].
  - eapply setkey_fail; exact H.
  - eapply delete_fail; exact H.
Qed.

(** ** Documents *)

Lemma jo_run_run pf ops : forall body out, run ops body = Some out -> exists es, jo_run pf body (map as_call ops) = Some (out, es).
Proof.
  induction ops as [|o ops IH]; intros body out H; [injection H as <-; exists []; reflexivity|]. cbn [run map jo_run] in *.
  assert (E : jo_call pf body (as_call o) = assign (call o body)) by (destruct o; cbn; rewrite ?jo_store; reflexivity).
  assert (K : keeps_body (as_call o)) by (destruct o; exact I).
  pose proof (fun body' e => jo_fail pf body (as_call o) body' e K) as F. rewrite E in *.
  destruct (call o body) as [out0|o0 e|]; [| |discriminate].
  - cbn [assign] in *. destruct (IH _ _ H) as [es He]. rewrite He. eexists. reflexivity.
  - assert (Hb : assign (Fail o0 e) = JRet body (Some e)).
    { destruct o0 as [out0|]; cbn [assign] in *; rewrite (F _ _ eq_refl); reflexivity. }
    rewrite Hb. destruct (IH _ _ H) as [es He]. rewrite He. eexists. reflexivity.
Qed.

Theorem jo_history pf d ops c' : wf_doc d = true -> lawful d ops c' ->
  exists d' es, jo_run pf (text d) (map as_call ops) = Some (text d', es) /\ wf_doc d' = true /\ content (d_val d') = c'.
Proof.
  intros Hw Hl. destruct (History.history d ops c' Hw Hl) as (d' & Hr & Hw' & Hc). destruct (jo_run_run pf _ _ _ Hr) as [es He].
  exists d', es. auto.
Qed.
