(** The operations on abstract documents keep strict documents strict; hence updates keep RFC 8259 texts valid. *)
From Coq Require Import String.
From Verif Require Import GoStd Json Spec Parse Rfc RfcProofs Focus Domains Core Errors Api Ops Updates History ApiProofs Format SpecFormat FormatProofs Skip.

Local Open Scope N_scope.

(** ** A text has one content *)
Theorem same_text_same_content d d' :
  wf_doc d = true -> wf_doc d' = true -> text d = text d' -> content (d_val d) = content (d_val d').
Proof.
  intros H H' E. destruct (parse_doc_complete d H) as (x & Hx & <-). destruct (parse_doc_complete d' H') as (y & Hy & <-).
  rewrite E in Hx. rewrite Hx in Hy. injection Hy as ->. reflexivity.
Qed.

Theorem flatten_iff_content d d' : wf_doc d = true -> wf_doc d' = true ->
  (Flatten (text d) = Flatten (text d') <-> content (d_val d) = content (d_val d')).
Proof.
  intros H H'. split; [|apply flatten_same; assumption]. rewrite !flatten_doc by assumption. intro E.
  rewrite <- (strip_content (d_val d)), <- (strip_content (d_val d')).
  apply (same_text_same_content (Doc [] (strip (d_val d)) []) (Doc [] (strip (d_val d')) [])).
  - unfold wf_doc in *. nbool. cbn. rewrite strip_wf by assumption. reflexivity.
  - unfold wf_doc in *. nbool. cbn. rewrite strip_wf by assumption. reflexivity.
  - unfold text. cbn [d_pre d_val d_post]. rewrite E. reflexivity.
Qed.

Lemma strict_text d : wf_doc d = true -> (json_text (text d) <-> strict (content (d_val d)) = true).
Proof.
  intro H. rewrite json_text_doc. split.
  - intros (d' & H' & Ht & Hs). rewrite (same_text_same_content d d' H H') by congruence. exact Hs.
  - intro Hs. exists d. auto.
Qed.

(** ** Keeping strictness *)
Definition smem (kv : bytes * jd) : bool := chars (fst kv) && strict (snd kv).

Lemma strict_nth ds z c : forallb strict ds = true -> nth_z ds z = Some c -> strict c = true.
Proof.
  unfold nth_z. destruct ((0 <=? z) && (z <? Z.of_nat (length ds)))%Z; [|discriminate]. intros H Hn. rewrite forallb_forall in H. apply H.
  apply nth_error_In in Hn. exact Hn.
Qed.

Lemma strict_assoc x ms c : forallb smem ms = true -> assoc x ms = Some c -> strict c = true.
Proof.
  induction ms as [|[k v] ms IH]; cbn [assoc forallb]; intros H Ha; [discriminate|].
  apply andb_prop in H. destruct H as [H1 H2]. destruct (bytes_eqb k x); [|apply IH; assumption].
  injection Ha as <-. unfold smem in H1. nbool. assumption.
Qed.

Lemma strict_child t x c : strict t = true -> d_child t x = Some c -> strict c = true.
Proof.
  destruct t as [s|s|ds|ms]; cbn [d_child strict]; try discriminate.
  - destruct (atoi x); [|discriminate]. apply strict_nth.
  - apply strict_assoc.
Qed.

Lemma strict_set_nth ds n c : forallb strict ds = true -> strict c = true -> forallb strict (set_nth ds n (fun _ => c)) = true.
Proof.
  intros H Hc. revert n. induction ds as [|a ds IH]; intro n; [destruct n; reflexivity|]. cbn [forallb] in H.
  apply andb_prop in H. destruct H as [H1 H2]. destruct n as [|n]; cbn [set_nth forallb].
  - rewrite Hc, H2. reflexivity.
  - rewrite H1, IH by assumption. reflexivity.
Qed.

Lemma strict_assoc_set x c ms : forallb smem ms = true -> strict c = true -> forallb smem (assoc_set x c ms) = true.
Proof.
  intros H Hc. induction ms as [|[k v] ms IH]; [reflexivity|]. cbn [forallb assoc_set] in *. apply andb_prop in H. destruct H as [H1 H2].
  destruct (bytes_eqb k x); cbn [forallb].
  - unfold smem in *. cbn [fst snd] in *. apply andb_prop in H1. destruct H1 as [-> _]. rewrite Hc. exact H2.
  - rewrite H1. apply IH. exact H2.
Qed.

Lemma strict_set_child t x c : strict t = true -> strict c = true -> strict (d_set_child t x c) = true.
Proof.
  destruct t as [s|s|ds|ms]; cbn [d_set_child strict]; intros H Hc; try assumption.
  - destruct (atoi x); [|exact H]. apply strict_set_nth; assumption.
  - apply strict_assoc_set; assumption.
Qed.

Lemma strict_modify p f : (forall c c', strict c = true -> f c = Some c' -> strict c' = true) ->
  forall t t', strict t = true -> d_modify t p f = Some t' -> strict t' = true.
Proof.
  intro Hf. induction p as [|x p IH]; intros t t' Ht; cbn [d_modify]; [apply Hf; exact Ht|].
  destruct (d_child t x) as [c|] eqn:E; [|discriminate]. destruct (d_modify c p f) as [c'|] eqn:E2; [|discriminate].
  intro H. injection H as <-. apply strict_set_child; [exact Ht|]. apply (IH c c'); [|exact E2].
  apply (strict_child t x c Ht E).
Qed.

Lemma forallb_remove_nth {A} (f : A -> bool) n l : forallb f l = true -> forallb f (remove_nth n l) = true.
Proof.
  revert n. induction l as [|a l IH]; intros [|n] H; cbn in *; try reflexivity; apply andb_prop in H; destruct H as [H1 H2]; [exact H2|].
  rewrite H1. apply IH. exact H2.
Qed.

Lemma forallb_assoc_remove (f : bytes * jd -> bool) x l : forallb f l = true -> forallb f (assoc_remove x l) = true.
Proof.
  induction l as [|[k v] l IH]; cbn; intro H; [reflexivity|]. apply andb_prop in H. destruct H as [H1 H2].
  destruct (bytes_eqb k x); [exact H2|]. cbn. rewrite H1. apply IH. exact H2.
Qed.

Lemma strict_rename x k ms : chars k = true -> forallb smem ms = true -> forallb smem (assoc_rename x k ms) = true.
Proof.
  intros Hk. induction ms as [|[k' v] l IH]; cbn [forallb assoc_rename]; intro H; [reflexivity|]. apply andb_prop in H. destruct H as [H1 H2].
  destruct (bytes_eqb k' x); cbn [forallb].
  - rewrite H2. unfold smem in *. cbn [fst snd] in *. rewrite Hk. apply andb_prop in H1. destruct H1 as [_ ->]. reflexivity.
  - rewrite H1. apply IH. exact H2.
Qed.

(** ** Operations with RFC 8259 arguments *)
Definition strict_op (o : op) : Prop :=
  match o with
  | OSet _ v | OAdd _ v | OInsert _ _ v => value (render v)
  | ODelete _ _ => True
  | OAddKV _ k v | OStore _ k v => chars k = true /\ value (render v)
  | OSetKey _ _ k => chars k = true
  end.

Lemma value_strict v : wf v = true -> value (render v) -> strict (content v) = true.
Proof.
  intros Hw Hv. apply (strict_text (Doc [] v [])).
  - unfold wf_doc. cbn. rewrite Hw. reflexivity.
  - unfold text. cbn [d_pre d_val d_post]. rewrite app_nil_r. apply value_text_ok. exact Hv.
Qed.

Lemma meaning_strict o t t' : op_ok o -> strict_op o -> strict t = true -> meaning o t = Some t' -> strict t' = true.
Proof.
  intros Ho Hs Ht. destruct o as [p v|q x|p v|p k v|p z v|q x k|p k v]; cbn [op_ok strict_op meaning] in *;
    apply strict_modify; try exact Ht; intros c c' Hc.
  - unfold d_const. intro H. injection H as <-. apply value_strict; tauto.
  - unfold d_remove. destruct c as [s|s|ds|ms]; try discriminate; cbn [strict] in Hc.
    + destruct (atoi x) as [z|]; [|discriminate]. destruct (nth_z ds z); [|discriminate]. intro H. injection H as <-.
      cbn [strict]. apply forallb_remove_nth. exact Hc.
    + destruct (assoc x ms); [|discriminate]. intro H. injection H as <-. cbn [strict]. apply forallb_assoc_remove. exact Hc.
  - unfold d_append. destruct c as [s|s|ds|ms]; try discriminate. intro H. injection H as <-. cbn [strict] in *.
    rewrite forallb_app, Hc. cbn. rewrite value_strict by assumption. reflexivity.
  - destruct Ho as [Ho1 Ho2], Hs as [Hk Hs]. unfold d_add. destruct c as [s|s|ds|ms]; try discriminate. destruct (assoc k ms); [discriminate|].
    intro H. injection H as <-. cbn [strict] in *. rewrite forallb_app, Hc. cbn. rewrite value_strict, Hk by assumption. reflexivity.
  - destruct Ho as [Ho1 Ho2]. unfold d_insert. destruct c as [s|s|ds|ms]; try discriminate. destruct (nth_z ds z); [|discriminate].
    intro H. injection H as <-. cbn [strict] in *. rewrite <- (firstn_skipn (Z.to_nat z) ds) in Hc.
    rewrite forallb_app in *. cbn [forallb]. rewrite value_strict by assumption. exact Hc.
  - unfold d_rename. destruct c as [s|s|ds|ms]; try discriminate. destruct (assoc x ms); [|discriminate]. destruct (assoc k ms); [discriminate|].
    intro H. injection H as <-. cbn [strict] in *. apply strict_rename; assumption.
  - destruct Ho as [Ho1 Ho2], Hs as [Hk Hs]. unfold d_store. destruct c as [s|s|ds|ms]; try discriminate. cbn [strict] in Hc.
    destruct (assoc k ms); intro H; injection H as <-; cbn [strict].
    + apply strict_assoc_set; [exact Hc|]. apply value_strict; assumption.
    + rewrite forallb_app. cbn. rewrite value_strict, Hk by assumption. rewrite andb_true_r. exact Hc.
Qed.

Lemma legal_op_ok d o : legal d o -> op_ok o \/ (exists p z v, o = OInsert p z v /\ wf v = true).
Proof. destruct o; cbn; intro H; try (left; tauto). right. do 3 eexists. split; [reflexivity|tauto]. Qed.

Lemma meaning_strict_legal d o t' : legal d o -> strict_op o -> strict (content (d_val d)) = true ->
  meaning o (content (d_val d)) = Some t' -> strict t' = true.
Proof.
  intros Hl Hs Ht Hm. destruct (legal_op_ok d o Hl) as [Ho|(p & z & v & -> & Hv)].
  - eapply meaning_strict; eassumption.
  - cbn [meaning strict_op] in *. revert Hm. apply strict_modify; [|exact Ht]. intros c c' Hc.
    unfold d_insert. destruct c as [s|s|ds|ms]; try discriminate. destruct (nth_z ds z); [|discriminate].
    intro H. injection H as <-. cbn [strict] in *. rewrite <- (firstn_skipn (Z.to_nat z) ds) in Hc.
    rewrite forallb_app in *. cbn [forallb]. rewrite value_strict by assumption. exact Hc.
Qed.

Theorem history_json d ops c' : wf_doc d = true -> lawful d ops c' -> Forall strict_op ops -> json_text (text d) ->
  exists out, run ops (text d) = Some out /\ json_text out.
Proof.
  intros Hw H. revert Hw. induction H as [d|d o ops c1 c2 Hl Hm _ IH|d o ops c2 Hr _ IH]; intros Hw Hs Ht.
  - exists (text d). auto.
  - destruct (call_ok d o c1 Hw Hl Hm) as (d1 & Hc & (Hw1 & _ & _ & Hc1)). cbn [run]. rewrite Hc. inversion Hs; subst.
    apply (IH d1 Hw1 Hc eq_refl Hw1); [assumption|]. apply strict_text; [exact Hw1|].
    eapply meaning_strict_legal; try eassumption. apply strict_text; assumption.
  - destruct (call_rejected d o Hw Hr) as (e & He). cbn [run]. rewrite He. inversion Hs; subst. apply IH; assumption.
Qed.

Theorem history_plain_json ops : Forall plain_op ops -> Forall strict_op ops -> forall d c', wf_doc d = true ->
  json_text (text d) -> meanings ops (content (d_val d)) = Some c' ->
  exists out, run ops (text d) = Some out /\ json_text out.
Proof.
  intros Hp Hs d c' Hw Ht Hm. destruct (history_plain ops Hp d c' Hw Hm) as (d' & Hr & Hw' & Hc).
  exists (text d'). split; [exact Hr|]. apply strict_text; [exact Hw'|]. rewrite Hc. apply strict_text in Ht; [|exact Hw].
  clear Hr Hc Hw Hw'. revert Ht Hm. generalize (content (d_val d)) as t. induction ops as [|o ops IH]; intros t Ht Hm.
  - injection Hm as <-. exact Ht.
  - cbn [meanings] in Hm. destruct (meaning o t) as [t1|] eqn:E; [|discriminate]. inversion Hs; inversion Hp; subst.
    apply (IH ltac:(assumption) ltac:(assumption) t1); [|exact Hm]. refine (meaning_strict o t t1 _ _ Ht E); [|assumption].
    destruct o; cbn in *; tauto.
Qed.

Theorem call_json d o c1 : wf_doc d = true -> json_text (text d) -> legal d o -> strict_op o ->
  meaning o (content (d_val d)) = Some c1 -> exists out, call o (text d) = Done out /\ json_text out.
Proof.
  intros Hw Ht Hl Hs Hm. destruct (call_ok d o c1 Hw Hl Hm) as (d1 & Hc & (Hw1 & _ & _ & Hc1)).
  exists (text d1). split; [exact Hc|]. apply strict_text; [exact Hw1|]. rewrite Hc1.
  eapply meaning_strict_legal; try eassumption. apply strict_text; assumption.
Qed.

Theorem flatten_json t : json_text t -> json_text (Flatten t).
Proof.
  intro H. apply json_text_doc in H. destruct H as (d & Hw & <- & Hs). rewrite flatten_doc by exact Hw.
  unfold wf_doc in Hw. nbool. apply value_text_ok. apply tree_grammar; [apply strip_wf; assumption|]. rewrite strip_content. exact Hs.
Qed.

Theorem get_json t : json_text t -> exists d, wf_doc d = true /\ text d = t /\
  forall p v, p <> [] -> lookup (d_val d) p = Some v -> Get t p = Ok (bare v).
Proof.
  intro H. apply json_text_doc in H. destruct H as (d & Hw & <- & Hs). exists d. repeat split; [exact Hw|].
  intros p v Hp Hl. apply get_present; assumption.
Qed.
