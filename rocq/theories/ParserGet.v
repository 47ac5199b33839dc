(** Looking things up in the tree. *)
From Coq Require Import String.
From Verif Require Import GoStd Json Core Skip Focus CoreProofs Errors Api ApiProofs Iter SpecParser Parser ParserProofs.

Local Open Scope N_scope.

(** ** Steps by label and steps of the document *)
Lemma itoa_inj a c : itoa a = itoa c -> a = c.
Proof. intro H. apply (f_equal parse_signed) in H. rewrite !parse_signed_itoa in H. congruence. Qed.

Lemma nth_label_spec els : forall k x e, nth_label k x els = Some e <->
  exists i, nth_error els i = Some e /\ x = itoa (Z.of_nat (k + i)).
Proof.
  induction els as [|a els IH]; intros k x e; cbn [nth_label].
  - split; [discriminate|]. intros (i & Hi & _). destruct i; discriminate.
  - destruct (bytes_eqb_spec (itoa (Z.of_nat k)) x) as [E|E]; split; intro H.
    + injection H as ->. exists O. rewrite Nat.add_0_r. auto.
    + destruct H as (i & Hi & Hx). rewrite Hx in E. apply itoa_inj in E. assert (i = O) by lia. subst i. exact Hi.
    + apply IH in H. destruct H as (i & Hi & Hx). exists (S i). split; [exact Hi|]. rewrite Hx. do 2 f_equal. lia.
    + destruct H as (i & Hi & Hx). destruct i as [|i]; [rewrite Nat.add_0_r in Hx; congruence|].
      apply IH. exists i. split; [exact Hi|]. rewrite Hx. do 2 f_equal. lia.
Qed.
Lemma lstep_arr w els x c : lstep (JArr w els) x = Some c <->
  exists i e, nth_error els i = Some e /\ x = itoa (Z.of_nat i) /\ c = e_val e.
Proof.
  cbn [lstep]. destruct (nth_label 0 x els) as [e|] eqn:E; cbn [option_map].
  - apply nth_label_spec in E. destruct E as (i & Hi & Hx). split; intro H.
    + injection H as <-. exists i, e. auto.
    + destruct H as (j & e' & Hj & Hx' & ->). rewrite Hx in Hx'. apply itoa_inj in Hx'. assert (i = j) by lia. subst j. congruence.
  - split; [discriminate|]. intros (i & e & Hi & Hx & ->).
    assert (E' : nth_label 0 x els = Some e) by (apply nth_label_spec; exists i; auto). congruence.
Qed.

Lemma child_lstep v x c : exact_step v x = true -> child v x = Some c -> lstep v x = Some c.
Proof.
  destruct v as [s|s|w els|w ms]; cbn [exact_step child]; try discriminate; [|auto].
  destruct (atoi x) as [z|]; [|discriminate]. intros Hx Hc. destruct (bytes_eqb_spec (itoa z) x) as [<-|]; [|discriminate].
  destruct (nth_z els z) as [e|] eqn:En; [|discriminate]. injection Hc as <-. apply nth_z_split in En.
  destruct En as (l1 & l2 & -> & ->). apply lstep_arr. exists (length l1), e. split; [|auto].
  rewrite nth_error_app2, Nat.sub_diag by lia. reflexivity.
Qed.

Lemma join_length (l : list bytes) : (length l <= S (length (join l)))%nat.
Proof.
  induction l as [|x [|y l] IH]; [cbn; lia|cbn; lia|]. change (join (x :: y :: l)) with (x ++ 44 :: join (y :: l)).
  cbn [length] in *. len.
Qed.
Lemma lstep_child v x c : fits (render v) -> lstep v x = Some c -> child v x = Some c /\ fits (render c).
Proof.
  unfold fits. destruct v as [s|s|w els|w ms]; try discriminate; intros Hf H.
  - apply lstep_arr in H. destruct H as (i & e & Hi & -> & ->). cbn [child].
    assert (Hl : (i < length els)%nat) by (apply nth_error_Some; congruence).
    rewrite render_arr in Hf. pose proof (join_length (map elem_text els)) as Hj. rewrite map_length in Hj.
    assert (Hi' : (Z.of_nat i <= int64_max)%Z) by (repeat (rewrite ?app_length in Hf; cbn [length] in Hf); lia).
    rewrite atoi_itoa by (unfold in_int64, int64_min, int64_max in *; apply andb_true_iff; split; apply Z.leb_le; lia).
    destruct (nth_error_split _ _ Hi) as (l1 & l2 & -> & <-). rewrite nth_z_app. split; [reflexivity|].
    rewrite map_app in Hf. cbn [map] in Hf. rewrite join_split in Hf. unfold elem_text at 2 in Hf.
    repeat (rewrite ?app_length in Hf; cbn [length] in Hf). lia.
  - cbn [lstep child] in *. split; [exact H|]. destruct (find_mem x ms) as [m|] eqn:E; [|discriminate]. injection H as <-.
    apply find_mem_split in E. destruct E as (_ & l1 & l2 & -> & _). rewrite render_obj_split in Hf.
    repeat (rewrite ?app_length in Hf; cbn [length] in Hf). lia.
Qed.

(** ** Walking *)
Section Walk.
  Variable C : jv -> list node -> Prop.
  Local Notation ag := (agreesG C).

  (** The children stand for the children of the value. *)
  Definition kids (v : jv) (ns : list node) : Prop :=
    (forall p n, find_node p ns = Some n -> exists c, lstep v p = Some c /\ ag c n) /\
    (forall p c, lstep v p = Some c -> find_node p ns = None -> lonely v = true) /\
    C v ns.
  Lemma agrees_kids v n : ag v n <-> shows (n_value n) v /\ kids v (n_down n).
  Proof.
    split; intro H.
    - destruct H as [v l x ns H1 H2 H3 H4]. split; [exact H1|]. split; [exact H2|]. split; [exact H3|exact H4].
    - destruct n as [l x ns]. destruct H as (H1 & H2 & H3 & H4). constructor; assumption.
  Qed.

  Lemma walk_found p : forall v n c, kids v (n_down n) -> lookup v p = Some c -> straight v p = true ->
    exists m, n_walk n p = Ok m /\ (p <> [] -> ag c m) /\ kids c (n_down m).
  Proof.
    induction p as [|x p IH]; intros v n c (H1 & H2 & H3) Hl Hs; cbn [lookup n_walk straight] in *.
    - injection Hl as <-. exists n. split; [reflexivity|]. split; [congruence|]. split; [exact H1|]. split; assumption.
    - nbool. destruct (child v x) as [u|] eqn:Ec; [|discriminate].
      pose proof (child_lstep v x u ltac:(assumption) Ec) as Hu.
      destruct (find_node x (n_down n)) as [m|] eqn:Ef.
      + destruct (H1 _ _ Ef) as (u' & Hu' & Ha). replace u' with u in * by congruence.
        apply agrees_kids in Ha. destruct Ha as [Hv Hk].
        destruct (IH u m c Hk Hl ltac:(assumption)) as (m' & Hm & Ha' & Hk'). exists m'. split; [exact Hm|]. split; [|exact Hk'].
        intros _. destruct p; [cbn in Hl, Hm; injection Hl as <-; injection Hm as <-; apply agrees_kids; auto|apply Ha'; discriminate].
      + rewrite (H2 _ _ Hu Ef) in *. discriminate.
  Qed.

  Lemma walk_sound p : forall v n m, kids v (n_down n) -> fits (render v) -> n_walk n p = Ok m ->
    exists c, lookup v p = Some c /\ (p <> [] -> ag c m) /\ kids c (n_down m).
  Proof.
    induction p as [|x p IH]; intros v n m Hk Hf Hw; cbn [lookup n_walk] in *.
    - injection Hw as <-. exists v. split; [reflexivity|]. split; [congruence|exact Hk].
    - destruct (find_node x (n_down n)) as [m1|] eqn:Ef; [|discriminate].
      destruct (proj1 Hk _ _ Ef) as (u & Hu & Ha). destruct (lstep_child _ _ _ Hf Hu) as [Hc Hf'].
      apply agrees_kids in Ha. destruct Ha as [Hv Hk1]. destruct (IH u m1 m Hk1 Hf' Hw) as (c & Hl & Ha & Hkc).
      exists c. rewrite Hc. split; [exact Hl|]. split; [|exact Hkc]. intros _.
      destruct p; [cbn in Hl, Hw; injection Hl as <-; injection Hw as <-; apply agrees_kids; auto|apply Ha; discriminate].
  Qed.

  (** Only a step that does not resolve stops the walk. *)
  Lemma walk_total p : forall v n, kids v (n_down n) ->
    (exists m, n_walk n p = Ok m) \/
    (exists q x r, p = q ++ x :: r /\ n_walk n p = Err (EKeyNotFound x) /\
       (fits (render v) -> lookup v q <> None) /\ (straight v p = true -> lookup v (q ++ [x]) = None)).
  Proof.
    induction p as [|x p IH]; intros v n Hk; cbn [n_walk]; [left; eauto|].
    destruct (find_node x (n_down n)) as [m1|] eqn:Ef.
    - destruct (proj1 Hk _ _ Ef) as (u & Hu & Ha). apply agrees_kids in Ha. destruct Ha as [Hv Hk1].
      destruct (IH u m1 Hk1) as [Hm|(q & y & r & -> & He & Hr & Hs)]; [left; exact Hm|].
      right. exists (x :: q), y, r. split; [reflexivity|]. split; [exact He|].
      split; [intro Hf; destruct (lstep_child _ _ _ Hf Hu) as [Hc Hf']; cbn [lookup]; rewrite Hc; apply Hr; exact Hf'|].
      cbn [straight lookup app]. intro H. nbool.
      destruct (child v x) as [u'|] eqn:Ec; [|reflexivity]. pose proof (child_lstep v x u' ltac:(assumption) Ec) as Hu'.
      replace u' with u in * by congruence. apply Hs. assumption.
    - right. exists [], x, p. split; [reflexivity|]. split; [reflexivity|]. split; [discriminate|]. cbn [app lookup straight]. intro H. nbool.
      destruct (child v x) as [u|] eqn:Ec; [|reflexivity]. pose proof (child_lstep v x u ltac:(assumption) Ec) as Hu.
      rewrite (proj1 (proj2 Hk) _ _ Hu Ef) in *. discriminate.
  Qed.
End Walk.

(** ** Parser.Get *)

(** The parser holds the document: its text, and a tree that follows it (the value of the root node, which only GetNew
    reads, is left out). *)
Definition p_holds C (p : parser) (d : doc) : Prop :=
  p_json p = text d /\ wf_doc d = true /\ kids C (d_val d) (n_down (p_core p)).

Lemma P_Get_cons p x r : P_Get p (x :: r) = do n <- n_walk (p_core p) (x :: r); cleanValue (n_value n).
Proof. reflexivity. Qed.

Theorem p_get_present C p d q v : p_holds C p d -> q <> [] -> lookup (d_val d) q = Some v -> straight (d_val d) q = true ->
  P_Get p q = Ok (bare v).
Proof.
  intros (Hj & Hw & Hk) Hq Hl Hs. destruct (walk_found C q _ _ _ Hk Hl Hs) as (m & Hm & Ha & _).
  destruct q as [|x q]; [congruence|]. rewrite P_Get_cons, Hm. cbn [bind]. apply agrees_kids in Ha; [apply shows_clean; apply Ha|discriminate].
Qed.

Theorem p_get_sound C p d q t : p_holds C p d -> fits (text d) -> P_Get p q = Ok t ->
  exists v, lookup (d_val d) q = Some v /\ t = match q with [] => text d | _ => bare v end /\ Get (text d) q = Ok t.
Proof.
  intros (Hj & Hw & Hk) Hf Hg. destruct q as [|x q].
  - cbn in Hg. injection Hg as <-. exists (d_val d). rewrite Hj. auto.
  - rewrite P_Get_cons in Hg. destruct (n_walk (p_core p) (x :: q)) as [m| |] eqn:Em; try discriminate. cbn [bind] in Hg.
    destruct (walk_sound C (x :: q) _ _ m Hk) as (c & Hl & Ha & _).
    + unfold fits, text in *. repeat rewrite app_length in Hf. lia.
    + exact Em.
    + specialize (Ha ltac:(discriminate)). apply agrees_kids in Ha. destruct Ha as [Ha _]. rewrite (shows_clean _ _ Ha) in Hg. injection Hg as <-.
      exists c. split; [exact Hl|]. split; [reflexivity|]. apply get_present; [exact Hw|discriminate|exact Hl].
Qed.

Theorem p_get_total C p d q : p_holds C p d -> fits (text d) ->
  (exists t, P_Get p q = Ok t) \/
  exists q0 x r, q = q0 ++ x :: r /\ P_Get p q = Err (EKeyNotFound x) /\ lookup (d_val d) q0 <> None /\
    (straight (d_val d) q = true -> lookup (d_val d) (q0 ++ [x]) = None).
Proof.
  intros (Hj & Hw & Hk) Hf. destruct q as [|y q]; [left; eexists; reflexivity|]. rewrite P_Get_cons.
  assert (Hf' : fits (render (d_val d))) by (unfold fits, text in *; repeat rewrite app_length in Hf; lia).
  destruct (walk_total C (y :: q) _ _ Hk) as [(m & Hm)|(q0 & x & r & Hq & He & Hr & Hs)].
  - left. rewrite Hm. destruct (walk_sound C (y :: q) _ _ m Hk Hf' Hm) as (c & _ & Ha & _).
    specialize (Ha ltac:(discriminate)). apply agrees_kids in Ha. cbn [bind]. rewrite (shows_clean _ _ (proj1 Ha)). eauto.
  - right. exists q0, x, r. split; [exact Hq|]. rewrite He. split; [reflexivity|]. split; [apply Hr; exact Hf'|exact Hs].
Qed.

Theorem parse_holds d : wf_doc d = true -> container (d_val d) = true ->
  exists p, Parse (text d) = Ok p /\ p_holds counted p d.
Proof.
  intros Hw Hc. destruct (parse_agrees d Hw Hc) as (n & Hp & Ha). eexists. split; [exact Hp|].
  split; [reflexivity|]. split; [exact Hw|]. apply agrees_kids in Ha. apply Ha.
Qed.
