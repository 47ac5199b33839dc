(** Updates of the tree. *)
From Coq Require Import String.
From Verif Require Import GoStd Json Spec SpecProofs Domains Core Skip Focus CoreProofs Errors Api ApiProofs Updates History Iter SpecParser Parser ParserProofs ParserGet.

Local Open Scope N_scope.

(** ** Nodes by label *)
Lemma find_node_label x ns n : find_node x ns = Some n -> n_label n = x.
Proof.
  induction ns as [|m ns IH]; cbn [find_node]; [discriminate|].
  destruct (bytes_eqb_spec (n_label m) x); intro H; [congruence|auto].
Qed.
Lemma find_node_app x l1 l2 : find_node x (l1 ++ l2) = match find_node x l1 with Some n => Some n | None => find_node x l2 end.
Proof. induction l1 as [|m l1 IH]; cbn [app find_node]; [reflexivity|]. destruct (bytes_eqb (n_label m) x); auto. Qed.
Lemma find_node_nolabel x ns : Forall (fun y => y <> x) (map n_label ns) -> find_node x ns = None.
Proof.
  induction ns as [|n ns IH]; cbn [map find_node]; intro H; [reflexivity|]. inversion H; subst.
  destruct (bytes_eqb_spec (n_label n) x); [contradiction|auto].
Qed.
Lemma find_node_none_nil ns : (forall x, find_node x ns = None) -> ns = [].
Proof. destruct ns as [|n ns]; [reflexivity|]. intro H. specialize (H (n_label n)). cbn in H. rewrite bytes_eqb_refl in H. discriminate. Qed.

Lemma find_upd_first x g ns : (forall m, n_label (g m) = n_label m) -> forall y,
  find_node y (upd_first x g ns) = if bytes_eqb y x then option_map g (find_node x ns) else find_node y ns.
Proof.
  intro Hg. induction ns as [|m ns IH]; intro y; cbn [upd_first find_node]; [destruct (bytes_eqb y x); reflexivity|].
  destruct (bytes_eqb_spec (n_label m) x) as [E|E]; cbn [find_node].
  - rewrite Hg. destruct (bytes_eqb_spec y x) as [->|Hy]; [rewrite E, bytes_eqb_refl; reflexivity|].
    destruct (bytes_eqb_spec (n_label m) y); [congruence|reflexivity].
  - rewrite IH. destruct (bytes_eqb_spec y x) as [->|Hy].
    + destruct (bytes_eqb_spec (n_label m) x); [contradiction|reflexivity].
    + reflexivity.
Qed.
Lemma upd_first_labels x g ns : (forall m, n_label (g m) = n_label m) -> map n_label (upd_first x g ns) = map n_label ns.
Proof.
  intro Hg. induction ns as [|m ns IH]; cbn [upd_first map]; [reflexivity|].
  destruct (bytes_eqb (n_label m) x); cbn [map]; [rewrite Hg|rewrite IH]; reflexivity.
Qed.
Lemma upd_node_label p g n : (forall m, n_label (g m) = n_label m) -> n_label (upd_node p g n) = n_label n.
Proof. intro Hg. destruct p; [apply Hg|]. destruct n. reflexivity. Qed.
Lemma upd_node_down x p g n : n_down (upd_node (x :: p) g n) = upd_first x (upd_node p g) (n_down n).
Proof. destruct n. reflexivity. Qed.
Lemma with_value_label t n : n_label (with_value t n) = n_label n. Proof. destruct n. reflexivity. Qed.
Lemma with_value_down t n : n_down (with_value t n) = n_down n. Proof. destruct n. reflexivity. Qed.
Lemma with_value_value t n : n_value (with_value t n) = t. Proof. destruct n. reflexivity. Qed.
Lemma with_down_down t n : n_down (with_down t n) = t. Proof. destruct n. reflexivity. Qed.
Lemma with_down_label t n : n_label (with_down t n) = n_label n. Proof. destruct n. reflexivity. Qed.

Lemma upd_first_ext x f g ns : (forall m, f m = g m) -> upd_first x f ns = upd_first x g ns.
Proof. intro H. induction ns as [|m ns IH]; cbn [upd_first]; [reflexivity|]. rewrite H, IH. reflexivity. Qed.
Lemma upd_node_app p q g : forall n, upd_node (p ++ q) g n = upd_node p (upd_node q g) n.
Proof.
  induction p as [|x p IH]; intro n; [reflexivity|]. cbn [app upd_node]. destruct n. f_equal. apply upd_first_ext. exact IH.
Qed.

Lemma ancestors_snoc q x : ancestors (q ++ [x]) = (q ++ [x]) :: ancestors q.
Proof. induction q as [|y q IH]; [reflexivity|]. cbn [app ancestors]. rewrite IH. cbn [map app]. reflexivity. Qed.

(** ** Paths that resolve both ways *)
Inductive reach : jv -> list bytes -> jv -> Prop :=
| R_nil v : reach v [] v
| R_cons v x u p c : child v x = Some u -> lstep v x = Some u -> reach u p c -> reach v (x :: p) c.

Lemma reach_lookup v p c : reach v p c -> lookup v p = Some c.
Proof. induction 1; cbn [lookup]; [reflexivity|]. rewrite H. exact IHreach. Qed.
Lemma straight_reach p : forall v c, lookup v p = Some c -> straight v p = true -> reach v p c.
Proof.
  induction p as [|x p IH]; intros v c Hl Hs; cbn [lookup straight] in *; [injection Hl as ->; constructor|].
  nbool. destruct (child v x) as [u|] eqn:E; [|discriminate]. econstructor; [exact E|apply child_lstep; assumption|].
  apply IH; assumption.
Qed.
Lemma reach_app_inv p : forall v q c, reach v (p ++ q) c -> exists u, reach v p u /\ reach u q c.
Proof.
  induction p as [|x p IH]; intros v q c H; [exists v; split; [constructor|exact H]|]. inversion H; subst.
  destruct (IH _ _ _ H6) as (u' & Hp & Hq). exists u'. split; [|exact Hq]. econstructor; eassumption.
Qed.
Lemma child_container v x c : child v x = Some c -> container v = true.
Proof. destruct v; cbn; congruence. Qed.
Lemma straight_app p : forall v q u, lookup v p = Some u -> straight v (p ++ q) = straight v p && straight u q.
Proof.
  induction p as [|x p IH]; intros v q u Hl; cbn [lookup app straight] in *; [injection Hl as ->; reflexivity|].
  destruct (child v x) as [c|]; [|discriminate]. rewrite (IH c q u Hl), !andb_assoc. reflexivity.
Qed.
Lemma lookup_app p : forall v q, lookup v (p ++ q) = match lookup v p with Some u => lookup u q | None => None end.
Proof. induction p as [|x p IH]; intros v q; cbn [lookup app]; [reflexivity|]. destruct (child v x); auto. Qed.

Lemma lstep_set_child v x u c : child v x = Some u -> exact_step v x = true -> forall y,
  lstep (set_child v x c) y = if bytes_eqb y x then Some c else lstep v y.
Proof.
  destruct v as [s|s|w els|w ms]; cbn [child exact_step set_child]; try discriminate; intros Hc He y.
  - destruct (atoi x) as [z|]; [|discriminate]. destruct (bytes_eqb_spec (itoa z) x) as [<-|]; [|discriminate].
    destruct (nth_z els z) as [e|] eqn:En; [|discriminate]. apply nth_z_split in En. destruct En as (l1 & l2 & -> & ->).
    rewrite Nat2Z.id, set_nth_app. set (e' := Elem (e_pre e) c (e_post e)).
    destruct (bytes_eqb_spec y (itoa (Z.of_nat (length l1)))) as [->|Hy].
    + apply lstep_arr. exists (length l1), e'. split; [rewrite nth_error_app2, Nat.sub_diag by lia; reflexivity|auto].
    + destruct (lstep (JArr w (l1 ++ e :: l2)) y) as [c1|] eqn:E1.
      * apply lstep_arr in E1. destruct E1 as (i & e1 & Hi & -> & ->). apply lstep_arr. exists i, e1. split; [|auto].
        destruct (Nat.lt_trichotomy i (length l1)) as [Hlt|[->|Hgt]]; [|congruence|].
        -- rewrite nth_error_app1 in * by lia. exact Hi.
        -- rewrite nth_error_app2 in * by lia. destruct (i - length l1)%nat as [|j] eqn:Ej; [lia|exact Hi].
      * destruct (lstep (JArr w (l1 ++ e' :: l2)) y) as [c2|] eqn:E2; [|reflexivity]. exfalso.
        apply lstep_arr in E2. destruct E2 as (i & e1 & Hi & -> & ->).
        assert (lstep (JArr w (l1 ++ e :: l2)) (itoa (Z.of_nat i)) <> None); [|congruence].
        assert (exists e2, nth_error (l1 ++ e :: l2) i = Some e2) as (e2 & He2).
        { destruct (nth_error (l1 ++ e :: l2) i) eqn:En; [eauto|]. apply nth_error_None in En.
          assert (nth_error (l1 ++ e' :: l2) i <> None) as Hn by congruence. apply nth_error_Some in Hn.
          rewrite app_length in *. cbn [length] in *. lia. }
        intro Hnone. assert (lstep (JArr w (l1 ++ e :: l2)) (itoa (Z.of_nat i)) = Some (e_val e2)); [|congruence].
        apply lstep_arr. exists i, e2. auto.
  - clear He. cbn [lstep]. destruct (find_mem x ms) as [m|] eqn:Em; [|discriminate]. clear Hc.
    apply find_mem_split in Em. destruct Em as (Hk & l1 & l2 & -> & Hn). rewrite set_mem_app by auto.
    destruct (bytes_eqb_spec y x) as [->|Hy]; [rewrite find_mem_app by auto; reflexivity|].
    clear Hn. induction l1 as [|a l1 IH]; cbn [app find_mem find].
    + cbn [m_key with_val]. rewrite Hk. destruct (bytes_eqb_spec x y) as [E|E]; [congruence|]. reflexivity.
    + destruct (bytes_eqb (m_key a) y); [reflexivity|]. exact IH.
Qed.

Lemma child_set_child v x u c : child v x = Some u -> child (set_child v x c) x = Some c.
Proof. apply child_set_same. Qed.

(** ** Conditions on the children that survive updates *)
Record closed (C : jv -> list node -> Prop) : Prop := {
  cl_same : forall v ns ns', C v ns -> map n_label ns' = map n_label ns -> C v ns';
  cl_child : forall v x c ns, C v ns -> C (set_child v x c) ns;
  cl_obj : forall w ms ns, C (JObj w ms) ns <-> map n_label ns = map m_key ms;
  cl_leaf : forall v, container v = false -> C v [];
  cl_len : forall w els ns, C (JArr w els) ns -> ns = [] \/ length ns = length els;
  cl_add : forall w els ns e t d, C (JArr w els) ns -> (ns = [] -> els = []) ->
    (forall n, In n ns -> exists i, (i < length els)%nat /\ n_label n = itoa (Z.of_nat i)) ->
    C (JArr w (els ++ [e])) (ns ++ [Node (itoa (Z.of_nat (length ns))) t d]);
  cl_pop : forall w w' l1 e els ns, C (JArr w (l1 ++ [e])) ns -> length els = length l1 ->
    find_node (itoa (Z.of_nat (length l1))) ns <> None ->
    C (JArr w' els) (filter (fun d => negb (bytes_eqb (n_label d) (itoa (Z.of_nat (length l1))))) ns)
}.

Lemma in_find n ns : In n ns -> exists m, find_node (n_label n) ns = Some m.
Proof.
  induction ns as [|a ns IH]; cbn [In find_node]; [tauto|]. intros [->|H]; [rewrite bytes_eqb_refl; eauto|].
  destruct (bytes_eqb (n_label a) (n_label n)); eauto.
Qed.
Lemma set_child_length w els x c : exists els', set_child (JArr w els) x c = JArr w els' /\ length els' = length els.
Proof.
  cbn [set_child]. destruct (atoi x) as [z|]; [|eauto]. eexists. split; [reflexivity|]. generalize (Z.to_nat z) as n.
  induction els as [|e els IH]; intros [|n]; cbn [set_nth length]; [reflexivity..|]. f_equal. apply IH.
Qed.
Lemma set_child_keys w ms x c : exists ms', set_child (JObj w ms) x c = JObj w ms' /\ map m_key ms' = map m_key ms.
Proof.
  cbn [set_child]. eexists. split; [reflexivity|]. induction ms as [|m ms IH]; cbn [set_mem map]; [reflexivity|].
  destruct (bytes_eqb (m_key m) x); cbn [map with_val m_key]; rewrite ?IH; reflexivity.
Qed.
Lemma positional_labels ns ns' : map n_label ns' = map n_label ns -> positional ns -> positional ns'.
Proof.
  intros H Hp i n Hi. apply (map_nth_error n_label) in Hi. rewrite H in Hi.
  destruct (nth_error ns i) as [m|] eqn:E; [|apply nth_error_None in E; assert (nth_error (map n_label ns) i <> None) as Hn by congruence;
    apply nth_error_Some in Hn; rewrite map_length in Hn; lia].
  rewrite (map_nth_error n_label i ns E) in Hi. injection Hi as Hi. rewrite <- Hi. apply Hp. exact E.
Qed.
Lemma same_length ns ns' : map n_label ns' = map n_label ns -> length ns' = length ns.
Proof. intro H. apply (f_equal (@length _)) in H. rewrite !map_length in H. exact H. Qed.

Lemma positional_last ns n : positional (ns ++ [n]) -> filter (fun d => negb (bytes_eqb (n_label d) (itoa (Z.of_nat (length ns))))) (ns ++ [n]) = ns.
Proof.
  intro Hp. rewrite filter_app. cbn [filter]. rewrite (Hp (length ns) n) by (rewrite nth_error_app2, Nat.sub_diag by lia; reflexivity).
  rewrite bytes_eqb_refl. cbn [negb]. rewrite app_nil_r.
  assert (H : forall m, In m ns -> bytes_eqb (n_label m) (itoa (Z.of_nat (length ns))) = false).
  { intros m Hm. apply In_nth_error in Hm. destruct Hm as (i & Hi). assert (i < length ns)%nat as Hl by (apply nth_error_Some; congruence).
    rewrite (Hp i m) by (rewrite nth_error_app1 by exact Hl; exact Hi). apply bytes_eqb_neq. intro E. apply itoa_inj in E. lia. }
  clear Hp. revert H. generalize (itoa (Z.of_nat (length ns))) as x. intros x H. induction ns as [|a ns IH]; cbn [filter]; [reflexivity|].
  rewrite H by (left; reflexivity). cbn [negb]. f_equal. apply IH. intros m Hm. apply H. right. exact Hm.
Qed.

Theorem counted_closed : closed counted.
Proof.
  split.
  - intros v ns ns' H Hl. destruct v as [s|s|w els|w ms]; cbn [counted] in *; try exact I; [|congruence].
    destruct H as [->|[H Hp]]; [left; destruct ns'; [reflexivity|discriminate]|]. right.
    split; [rewrite (same_length _ _ Hl); exact H|exact (positional_labels _ _ Hl Hp)].
  - intros v x c ns H. destruct v as [s|s|w els|w ms]; [exact I|exact I| |].
    + destruct (set_child_length w els x c) as (els' & -> & Hl). cbn [counted] in *. rewrite Hl. exact H.
    + destruct (set_child_keys w ms x c) as (ms' & -> & Hl). cbn [counted] in *. rewrite Hl. exact H.
  - reflexivity.
  - intros v Hv. destruct v; try discriminate; exact I.
  - intros w els ns H. cbn [counted] in H. tauto.
  - intros w els ns e t d H Hn _. right. cbn [counted] in H. rewrite !app_length. cbn [length].
    assert (Hlen : length ns = length els /\ positional ns).
    { destruct H as [->|H]; [rewrite Hn by reflexivity; split; [reflexivity|intros [|i] ? ?; discriminate]|exact H]. }
    split; [lia|]. intros i n Hi. destruct (Nat.lt_ge_cases i (length ns)) as [Hlt|Hge].
    + rewrite nth_error_app1 in Hi by exact Hlt. apply Hlen. exact Hi.
    + rewrite nth_error_app2 in Hi by exact Hge. destruct (i - length ns)%nat as [|j] eqn:Ej; [|destruct j; discriminate].
      injection Hi as <-. cbn [n_label]. do 2 f_equal. lia.
  - intros w w' l1 e els ns H Hl Hf. cbn [counted] in *. destruct H as [->|[H Hp]]; [contradiction Hf; reflexivity|]. right.
    rewrite app_length in H. cbn [length] in H. destruct ns as [|a ns] using rev_ind; [cbn in H; lia|].
    rewrite app_length in H. cbn [length] in H. replace (length l1) with (length ns) by lia. rewrite positional_last by exact Hp.
    split; [lia|]. intros i n Hi. apply Hp. rewrite nth_error_app1; [exact Hi|]. apply nth_error_Some. congruence.
Qed.

(** As [counted], but elements may be out of order (as Insert leaves them). *)
Definition counted1 (v : jv) (ns : list node) : Prop :=
  match v with
  | JArr _ els => ns = [] \/ (length ns = length els /\ NoDup (map n_label ns))
  | JObj _ ms => map n_label ns = map m_key ms
  | _ => True
  end.

Lemma nodup_filter x ns : NoDup (map n_label ns) -> find_node x ns <> None ->
  NoDup (map n_label (filter (fun d => negb (bytes_eqb (n_label d) x)) ns)) /\
  S (length (filter (fun d => negb (bytes_eqb (n_label d) x)) ns)) = length ns.
Proof.
  assert (Hid : forall ns, ~ In x (map n_label ns) -> filter (fun d => negb (bytes_eqb (n_label d) x)) ns = ns).
  { clear. induction ns as [|a ns IH]; cbn [filter map In]; intro H; [reflexivity|]. destruct (bytes_eqb_spec (n_label a) x); [tauto|]. cbn [negb]. rewrite IH by tauto. reflexivity. }
  induction ns as [|a ns IH]; cbn [map find_node filter]; intros Hd Hf; [congruence|]. inversion Hd; subst.
  destruct (bytes_eqb_spec (n_label a) x) as [E|E]; cbn [negb].
  - rewrite Hid by (rewrite <- E; assumption). split; [assumption|reflexivity].
  - destruct (IH ltac:(assumption) Hf) as [Hd' Hl]. cbn [map length]. split; [|lia]. constructor; [|exact Hd'].
    intro Hin. apply in_map_iff in Hin. destruct Hin as (m & Hm & Hin). apply filter_In in Hin. apply H1. rewrite <- Hm. apply in_map. tauto.
Qed.

Theorem counted1_closed : closed counted1.
Proof.
  split.
  - intros v ns ns' H Hl. destruct v as [s|s|w els|w ms]; cbn [counted1] in *; try exact I; [|congruence].
    destruct H as [->|[H Hp]]; [left; destruct ns'; [reflexivity|discriminate]|]. right.
    split; [rewrite (same_length _ _ Hl); exact H|rewrite Hl; exact Hp].
  - intros v x c ns H. destruct v as [s|s|w els|w ms]; [exact I|exact I| |].
    + destruct (set_child_length w els x c) as (els' & -> & Hl). cbn [counted1] in *. rewrite Hl. exact H.
    + destruct (set_child_keys w ms x c) as (ms' & -> & Hl). cbn [counted1] in *. rewrite Hl. exact H.
  - reflexivity.
  - intros v Hv. destruct v; try discriminate; exact I.
  - intros w els ns H. cbn [counted1] in H. tauto.
  - intros w els ns e t d H Hn Hlab. right. cbn [counted1] in H. rewrite !app_length. cbn [length].
    assert (Hlen : length ns = length els /\ NoDup (map n_label ns)).
    { destruct H as [->|H]; [rewrite Hn by reflexivity; split; [reflexivity|constructor]|exact H]. }
    split; [lia|]. rewrite map_app. cbn [map n_label]. apply NoDup_Add with (a := itoa (Z.of_nat (length ns))) (l := map n_label ns).
    + rewrite <- (app_nil_r (map n_label ns)) at 1. apply Add_app.
    + split; [tauto|]. intro Hin. apply in_map_iff in Hin. destruct Hin as (m & Hm & Hin). destruct (Hlab _ Hin) as (i & Hi & Hmi).
      rewrite Hmi in Hm. apply itoa_inj in Hm. lia.
  - intros w w' l1 e els ns H Hl Hf. cbn [counted1] in *. destruct H as [->|[H Hp]]; [contradiction Hf; reflexivity|]. right.
    destruct (nodup_filter _ ns Hp Hf) as [Hd Hlen]. rewrite app_length in H. cbn [length] in H. split; [lia|exact Hd].
Qed.



(** ** Objects as lists of pairs *)
Lemma lstep_obj w ms y : lstep (JObj w ms) y = assoc y (map kv ms).
Proof. symmetry. apply assoc_kv. Qed.
Lemma assoc_split {V} y (l1 l2 : list (bytes * V)) : assoc y (l1 ++ l2) = match assoc y l1 with Some v => Some v | None => assoc y l2 end.
Proof. induction l1 as [|[k v] l1 IH]; cbn [app assoc]; [reflexivity|]. destruct (bytes_eqb k y); auto. Qed.
Lemma nokey_assoc x ms : nokey x ms <-> assoc x (map kv ms) = None.
Proof. rewrite assoc_kv, <- find_mem_none. destruct (find_mem x ms); cbn; split; congruence. Qed.

Lemma cut_mem_pairs w l1 m l2 : exists w' ms, cut_mem w l1 m l2 = JObj w' ms /\ map kv ms = map kv l1 ++ map kv l2.
Proof.
  unfold cut_mem. destruct l2 as [|m2 l2].
  - destruct (rev l1) as [|m1 r1] eqn:E.
    + eexists _, _. split; [reflexivity|]. apply (f_equal (@rev _)) in E. rewrite rev_involutive in E. subst l1. reflexivity.
    + eexists _, _. split; [reflexivity|]. apply (f_equal (@rev _)) in E. rewrite rev_involutive in E. subst l1.
      cbn [rev]. rewrite !map_app. cbn [map]. rewrite app_nil_r. reflexivity.
  - eexists _, _. split; [reflexivity|]. rewrite map_app. reflexivity.
Qed.

Section Upd.
  Variable C : jv -> list node -> Prop.
  Hypothesis HC : closed C.
  Local Notation ag := (agreesG C).
  Local Notation kids := (kids C).

  (** Like [kids], but the values of the nodes on the path [q] may be out of date. *)
  Fixpoint stale (q : list bytes) (v : jv) (n : node) : Prop :=
    match q with
    | [] => kids v (n_down n)
    | x :: q' =>
        (forall p m, find_node p (n_down n) = Some m ->
           exists c, lstep v p = Some c /\ if bytes_eqb p x then stale q' c m else ag c m) /\
        (forall p c, lstep v p = Some c -> find_node p (n_down n) = None -> lonely v = true) /\
        C v (n_down n)
    end.

  Lemma upd_stale p : forall v n c f c' g,
    kids v (n_down n) -> lookup v p = Some c -> straight v p = true -> f c = Some c' ->
    (forall m, n_label (g m) = n_label m) ->
    (forall m, n_walk n p = Ok m -> kids c (n_down m) -> kids c' (n_down (g m))) ->
    exists v', modify v p f = Some v' /\ reach v' p c' /\ stale p v' (upd_node p g n).
  Proof.
    induction p as [|x p IH]; intros v n c f c' g Hk Hl Hs Hf Hg HK; cbn [lookup straight modify n_walk] in *.
    - injection Hl as ->. exists c'. split; [exact Hf|]. split; [constructor|]. cbn [stale upd_node]. apply HK; [reflexivity|exact Hk].
    - nbool. destruct (child v x) as [u|] eqn:Ec; [|discriminate].
      match goal with H : exact_step v x = true |- _ => rename H into He end.
      match goal with H : straight u p = true |- _ => rename H into Hsu end.
      match goal with H : lonely v = false |- _ => rename H into Hlone end.
      pose proof (child_lstep v x u He Ec) as Hu. destruct Hk as (H1 & H2 & H3).
      destruct (find_node x (n_down n)) as [m|] eqn:Ef; [|rewrite (H2 _ _ Hu Ef) in Hlone; discriminate].
      destruct (H1 _ _ Ef) as (u' & Hu' & Ha). replace u' with u in * by congruence. clear u' Hu'.
      pose proof (proj1 (agrees_kids C _ _) Ha) as [_ Hkm].
      destruct (IH u m c f c' g Hkm Hl Hsu Hf Hg HK) as (w & Hw & Hr & Hst). rewrite Hw.
      eexists. split; [reflexivity|]. pose proof (lstep_set_child v x u w Ec He) as HL.
      split; [econstructor; [eapply child_set_child; exact Ec|rewrite HL, bytes_eqb_refl; reflexivity|exact Hr]|].
      cbn [stale]. rewrite upd_node_down. assert (Hgl : forall m, n_label (upd_node p g m) = n_label m) by (intro; apply upd_node_label; exact Hg).
      split; [|split].
      + intros y m' Hm'. rewrite find_upd_first in Hm' by exact Hgl. rewrite HL. destruct (bytes_eqb_spec y x) as [->|Hy].
        * rewrite Ef in Hm'. cbn [option_map] in Hm'. injection Hm' as <-. exists w. auto.
        * exact (H1 _ _ Hm').
      + intros y c1 Hy Hn. exfalso. rewrite find_upd_first in Hn by exact Hgl. rewrite HL in Hy. destruct (bytes_eqb_spec y x) as [->|Hyx].
        * rewrite Ef in Hn. discriminate.
        * rewrite (H2 _ _ Hy Hn) in Hlone. discriminate.
      + apply (cl_same C HC) with (ns := n_down n); [apply (cl_child C HC); exact H3|apply upd_first_labels; exact Hgl].
  Qed.

  (** Writing the value of the node at the end of the path. *)
  Lemma fresh q : forall v n x c t, stale (q ++ [x]) v n -> reach v (q ++ [x]) c -> shows t c ->
    stale q v (upd_node (q ++ [x]) (with_value t) n).
  Proof.
    induction q as [|y q IH]; intros v n x c t (H1 & H2 & H3) Hr Ht; cbn [app] in *.
    - inversion Hr as [|v0 x0 u p c0 Hch Hst Hre]; subst. inversion Hre; subst. cbn [stale]. rewrite upd_node_down. cbn [upd_node].
      assert (Hgl : forall m, n_label (with_value t m) = n_label m) by apply with_value_label.
      split; [|split].
      + intros y m' Hm'. change (upd_first x (fun n0 => with_value t n0)) with (upd_first x (with_value t)) in Hm'.
        rewrite find_upd_first in Hm' by exact Hgl. destruct (bytes_eqb_spec y x) as [->|Hy].
        * destruct (find_node x (n_down n)) as [m|] eqn:Ef; [|discriminate]. injection Hm' as <-.
          destruct (H1 _ _ Ef) as (c' & Hc' & Hs). rewrite bytes_eqb_refl in Hs. replace c' with c in * by congruence.
          exists c. split; [exact Hc'|]. apply agrees_kids. rewrite with_value_value, with_value_down. split; [exact Ht|exact Hs].
        * destruct (H1 _ _ Hm') as (c' & Hc' & Hs). destruct (bytes_eqb_spec y x); [contradiction|]. eauto.
      + intros y c1 Hy Hn. apply H2 with (p := y) (c := c1); [exact Hy|]. rewrite find_upd_first in Hn by exact Hgl.
        destruct (bytes_eqb_spec y x) as [->|]; [|exact Hn]. destruct (find_node x (n_down n)); [discriminate|reflexivity].
      + apply (cl_same C HC) with (ns := n_down n); [exact H3|apply upd_first_labels; exact Hgl].
    - inversion Hr as [|v0 x0 u p c0 Hch Hst Hre]; subst. cbn [stale]. rewrite upd_node_down.
      assert (Hgl : forall m, n_label (upd_node (q ++ [x]) (with_value t) m) = n_label m) by (intro; apply upd_node_label, with_value_label).
      split; [|split].
      + intros z m' Hm'. rewrite find_upd_first in Hm' by exact Hgl. destruct (bytes_eqb_spec z y) as [->|Hz].
        * destruct (find_node y (n_down n)) as [m|] eqn:Ef; [|discriminate]. injection Hm' as <-.
          destruct (H1 _ _ Ef) as (c' & Hc' & Hs). rewrite bytes_eqb_refl in Hs. replace c' with u in * by congruence.
          exists u. split; [exact Hc'|]. eapply IH; eassumption.
        * destruct (H1 _ _ Hm') as (c' & Hc' & Hs). destruct (bytes_eqb_spec z y); [contradiction|]. eauto.
      + intros z c1 Hy Hn. apply H2 with (p := z) (c := c1); [exact Hy|]. rewrite find_upd_first in Hn by exact Hgl.
        destruct (bytes_eqb_spec z y) as [->|]; [|exact Hn]. destruct (find_node y (n_down n)); [discriminate|reflexivity].
      + apply (cl_same C HC) with (ns := n_down n); [exact H3|apply upd_first_labels; exact Hgl].
  Qed.

  Lemma bare_container c : container c = true -> bare c = render c.
  Proof. destruct c; [discriminate|discriminate|reflexivity|reflexivity]. Qed.

  Lemma refresh_ok d q : wf_doc d = true -> forall c p, reach (d_val d) q c -> container c = true ->
    p_json p = text d -> stale q (d_val d) (p_core p) ->
    exists p', refresh (ancestors q) p = PRet p' None /\ refresh_quiet (ancestors q) p = PRet p' None /\ p_holds C p' d.
  Proof.
    intro Hw. induction q as [|x q IH] using rev_ind; intros c p Hr Hc Hj Hs.
    - exists p. split; [reflexivity|]. split; [reflexivity|]. split; [exact Hj|]. split; [exact Hw|exact Hs].
    - rewrite ancestors_snoc. cbn [refresh refresh_quiet]. pose proof (reach_lookup _ _ _ Hr) as Hl.
      rewrite Hj, (get_present d (q ++ [x]) c Hw ltac:(destruct q; discriminate) Hl).
      destruct (reach_app_inv _ _ _ _ Hr) as (u & Hq & Hx). inversion Hx; subst.
      apply IH with (c := u); [exact Hq|eapply child_container; eassumption|reflexivity|]. cbn [p_core].
      eapply fresh; [exact Hs|exact Hr|]. rewrite bare_container by exact Hc.
      apply shows_render.
      destruct (lookup_focus _ _ _ Hl) as (pre & post & HF). eapply focus_wf; [exact HF|apply wf_doc_val; exact Hw].
  Qed.

  Lemma hollow_childless v n : hollow v = true -> ag v n -> n_down n = [].
  Proof.
    intros Hh Ha. apply agrees_kids in Ha. destruct Ha as (_ & H1 & _). apply find_node_none_nil. intro x.
    destruct (find_node x (n_down n)) eqn:E; [|reflexivity]. destruct (H1 _ _ E) as (c & Hc & _).
    destruct v as [s|s|w [|e els]|w [|m ms]]; try discriminate Hh; discriminate Hc.
  Qed.
  Lemma leaf_agrees v l : leaf v = true -> wf v = true -> ag v (Node l (render v) []).
  Proof.
    unfold leaf. intros Hl Hw. apply agrees_kids. split; [apply shows_render; exact Hw|]. split; [discriminate|]. split.
    - intros p c Hc. destruct v; discriminate.
    - apply (cl_leaf C HC). destruct (container v); [discriminate|reflexivity].
  Qed.

  (** ** What each operation does to the children of a container *)
  Lemma kids_set u ns x old new : child u x = Some old -> exact_step u x = true -> lonely u = false -> hollow old = true ->
    leaf new = true -> wf new = true -> kids u ns -> kids (set_child u x new) (upd_first x (with_value (render new)) ns).
  Proof.
    intros Hc He Hlone Hh Hn Hw (H1 & H2 & H3). pose proof (lstep_set_child u x old new Hc He) as HL.
    assert (Hgl : forall m, n_label (with_value (render new) m) = n_label m) by apply with_value_label.
    split; [|split].
    - intros y m Hm. rewrite find_upd_first in Hm by exact Hgl. rewrite HL. destruct (bytes_eqb_spec y x) as [->|Hy]; [|exact (H1 _ _ Hm)].
      destruct (find_node x ns) as [m0|] eqn:Ef; [|discriminate]. injection Hm as <-. exists new. split; [reflexivity|].
      destruct (H1 _ _ Ef) as (c & Hc' & Ha). rewrite (child_lstep u x old He Hc) in Hc'. injection Hc' as <-.
      pose proof (hollow_childless _ _ Hh Ha) as Hd. destruct m0 as [l t d]. cbn in Hd. subst d. cbn [with_value]. apply leaf_agrees; assumption.
    - intros y c Hy Hn'. exfalso. rewrite find_upd_first in Hn' by exact Hgl. rewrite HL in Hy. destruct (bytes_eqb_spec y x) as [->|Hyx].
      + destruct (find_node x ns) eqn:Ef; [discriminate|]. rewrite (H2 _ _ (child_lstep u x old He Hc) Ef) in Hlone. discriminate.
      + rewrite (H2 _ _ Hy Hn') in Hlone. discriminate.
    - apply (cl_same C HC) with (ns := ns); [apply (cl_child C HC); exact H3|apply upd_first_labels; exact Hgl].
  Qed.

  Lemma find_filter x ns : forall y, find_node y (filter (fun d => negb (bytes_eqb (n_label d) x)) ns) =
    if bytes_eqb y x then None else find_node y ns.
  Proof.
    induction ns as [|m ns IH]; intro y; cbn [filter find_node]; [destruct (bytes_eqb y x); reflexivity|].
    destruct (bytes_eqb_spec (n_label m) x) as [E|E]; cbn [negb find_node]; rewrite ?IH.
    - destruct (bytes_eqb_spec y x) as [->|Hy]; [reflexivity|]. destruct (bytes_eqb_spec (n_label m) y); [congruence|reflexivity].
    - destruct (bytes_eqb_spec y x) as [->|Hy]; [|reflexivity]. destruct (bytes_eqb_spec (n_label m) x); [contradiction|reflexivity].
  Qed.

  (** Objects whose pairs differ only in known places *)
  Lemma kids_obj w ms w' ms' ns ns' : kids (JObj w ms) ns ->
    (forall y n, find_node y ns' = Some n -> exists c, assoc y (map kv ms') = Some c /\
       (ag c n \/ exists y0, find_node y0 ns = Some n /\ assoc y0 (map kv ms) = Some c)) ->
    (forall y c, assoc y (map kv ms') = Some c -> find_node y ns' = None -> exists y0 c0, assoc y0 (map kv ms) = Some c0 /\ find_node y0 ns = None) ->
    map n_label ns' = map m_key ms' ->
    kids (JObj w' ms') ns'.
  Proof.
    intros (H1 & H2 & H3) Ha Hb Hlab. split; [|split].
    - intros y n Hn. destruct (Ha _ _ Hn) as (c & Hc & [Hag|(y0 & Hy0 & Hc0)]); exists c; rewrite lstep_obj; (split; [exact Hc|]); [exact Hag|].
      destruct (H1 _ _ Hy0) as (c1 & Hc1 & Hag). rewrite lstep_obj in Hc1. congruence.
    - intros y c Hc Hn. rewrite lstep_obj in Hc. destruct (Hb _ _ Hc Hn) as (y0 & c0 & Hc0 & Hn0).
      exfalso. rewrite <- lstep_obj with (w := w) in Hc0. specialize (H2 _ _ Hc0 Hn0). discriminate H2.
    - apply (cl_obj C HC). exact Hlab.
  Qed.

  Lemma labels_filter x ns : map n_label (filter (fun d => negb (bytes_eqb (n_label d) x)) ns) = filter (fun y => negb (bytes_eqb y x)) (map n_label ns).
  Proof. induction ns as [|n ns IH]; cbn [filter map]; [reflexivity|]. destruct (bytes_eqb (n_label n) x); cbn [negb map]; rewrite ?IH; reflexivity. Qed.
  Lemma filter_keys x l : nokey x l -> filter (fun y => negb (bytes_eqb y x)) (map m_key l) = map m_key l.
  Proof.
    induction 1 as [|m l Hm _ IH]; cbn [filter map]; [reflexivity|]. destruct (bytes_eqb_spec (m_key m) x); [contradiction|]. cbn [negb]. rewrite IH. reflexivity.
  Qed.
  Lemma kids_delete w l1 m l2 ns : nokey (m_key m) l1 -> nokey (m_key m) l2 -> kids (JObj w (l1 ++ m :: l2)) ns ->
    kids (cut_mem w l1 m l2) (filter (fun d => negb (bytes_eqb (n_label d) (m_key m))) ns).
  Proof.
    intros Hn1 Hn2 Hk. destruct (cut_mem_pairs w l1 m l2) as (w' & ms & -> & Hms).
    assert (HL : forall y, assoc y (map kv ms) = if bytes_eqb y (m_key m) then None else assoc y (map kv (l1 ++ m :: l2))).
    { intro y. rewrite Hms, map_app. cbn [map]. rewrite !assoc_split. cbn [kv assoc]. rewrite nokey_assoc in Hn1, Hn2.
      destruct (bytes_eqb_spec y (m_key m)) as [->|Hy]; [rewrite Hn1, Hn2; reflexivity|].
      destruct (assoc y (map kv l1)); [reflexivity|]. unfold kv at 2. cbn [assoc]. destruct (bytes_eqb_spec (m_key m) y); [congruence|reflexivity]. }
    pose proof (proj1 (proj2 Hk)) as H2.
    eapply kids_obj; [exact Hk| | |].
    3:{ pose proof (proj1 (cl_obj C HC _ _ _) (proj2 (proj2 Hk))) as Hlab. clear -Hlab Hms Hn1 Hn2.
        replace (map m_key ms) with (map fst (map kv ms)) by (rewrite map_map; reflexivity). rewrite Hms, map_app, !map_map. cbn [kv fst].
        rewrite labels_filter, Hlab. rewrite map_app. cbn [map]. rewrite filter_app. cbn [filter]. rewrite bytes_eqb_refl. cbn [negb].
        rewrite !filter_keys by assumption. reflexivity. }
    - intros y n Hn. rewrite find_filter in Hn. rewrite HL. destruct (bytes_eqb y (m_key m)); [discriminate|].
      destruct (proj1 Hk _ _ Hn) as (c & Hc & Ha). rewrite lstep_obj in Hc. exists c. auto.
    - intros y c Hc Hn. rewrite find_filter in Hn. rewrite HL in Hc. destruct (bytes_eqb y (m_key m)); [discriminate|]. eauto.
  Qed.

  Lemma kids_setkey w l1 m l2 ns k : nokey (m_key m) l1 -> nokey (m_key m) l2 -> nokey k (l1 ++ m :: l2) -> kids (JObj w (l1 ++ m :: l2)) ns ->
    kids (JObj w (l1 ++ rename m k :: l2)) (upd_first (m_key m) (with_label k) ns).
  Proof.
    intros Hn1 Hn2 Hno Hk. pose proof (proj1 (cl_obj C HC _ _ _) (proj2 (proj2 Hk))) as Hlab.
    rewrite map_app in Hlab. cbn [map] in Hlab. apply map_eq_app in Hlab. destruct Hlab as (n1 & n2 & -> & Hl1 & Hl2).
    destruct n2 as [|n n2]; [discriminate|]. cbn [map] in Hl2. injection Hl2 as Hln Hl2.
    unfold nokey in Hno. rewrite Forall_app in Hno. destruct Hno as [Hk1 Hno]. inversion Hno as [|? ? Hkm Hk2]; subst. clear Hno.
    assert (Hupd : upd_first (m_key m) (with_label k) (n1 ++ n :: n2) = n1 ++ with_label k n :: n2).
    { assert (H : Forall (fun y => y <> m_key m) (map n_label n1)) by (rewrite Hl1; apply Forall_map; exact Hn1).
      clear -H Hln. induction n1 as [|a n1 IH]; cbn [app upd_first map] in *; [rewrite Hln, bytes_eqb_refl; reflexivity|].
      inversion H; subst. destruct (bytes_eqb_spec (n_label a) (m_key m)); [contradiction|]. rewrite IH by assumption. reflexivity. }
    rewrite Hupd.
    assert (Hwl : n_label (with_label k n) = k) by (destruct n; reflexivity).
    assert (HF : forall y, find_node y (n1 ++ with_label k n :: n2) =
       if bytes_eqb y k then Some (with_label k n) else if bytes_eqb y (m_key m) then None else find_node y (n1 ++ n :: n2)).
    { assert (Hk1' : find_node k n1 = None) by (apply find_node_nolabel; rewrite Hl1; apply Forall_map; exact Hk1).
      assert (Hm1' : find_node (m_key m) n1 = None) by (apply find_node_nolabel; rewrite Hl1; apply Forall_map; exact Hn1).
      assert (Hm2' : find_node (m_key m) n2 = None) by (apply find_node_nolabel; rewrite Hl2; apply Forall_map; exact Hn2).
      intro y. rewrite !find_node_app. cbn [find_node]. rewrite Hwl, Hln.
      destruct (bytes_eqb_spec y k) as [->|Hy]; [rewrite Hk1', bytes_eqb_refl; reflexivity|].
      destruct (bytes_eqb_spec k y); [congruence|]. destruct (bytes_eqb_spec y (m_key m)) as [->|Hym]; [rewrite Hm1'; exact Hm2'|].
      destruct (bytes_eqb_spec (m_key m) y); [congruence|]. reflexivity. }
    assert (HL : forall y, assoc y (map kv (l1 ++ rename m k :: l2)) =
       if bytes_eqb y k then Some (m_val m) else if bytes_eqb y (m_key m) then None else assoc y (map kv (l1 ++ m :: l2))).
    { apply nokey_assoc in Hk1, Hn1, Hn2. intro y. rewrite !map_app. cbn [map]. rewrite !assoc_split. cbn [assoc kv rename m_key m_val]. unfold kv at 2 4. cbn [assoc rename m_key m_val].
      destruct (bytes_eqb_spec y k) as [->|Hy]; [rewrite Hk1, bytes_eqb_refl; reflexivity|].
      destruct (bytes_eqb_spec k y); [congruence|]. destruct (bytes_eqb_spec y (m_key m)) as [->|Hym]; [rewrite Hn1; exact Hn2|].
      destruct (bytes_eqb_spec (m_key m) y); [congruence|]. reflexivity. }
    assert (Hfm : find_node (m_key m) (n1 ++ n :: n2) = Some n).
    { rewrite find_node_app. cbn [find_node]. rewrite Hln, bytes_eqb_refl. rewrite find_node_nolabel; [reflexivity|]. rewrite Hl1. apply Forall_map. exact Hn1. }
    eapply kids_obj; [exact Hk| | |].
    - intros y n0 Hn0. rewrite HF in Hn0. rewrite HL. destruct (bytes_eqb_spec y k) as [->|Hy].
      + injection Hn0 as <-. exists (m_val m). split; [reflexivity|]. left.
        destruct (proj1 Hk _ _ Hfm) as (c & Hc & Ha). rewrite lstep_obj, map_app, assoc_split in Hc. apply nokey_assoc in Hn1. rewrite Hn1 in Hc.
        cbn [map] in Hc. unfold kv at 1 in Hc. cbn [assoc] in Hc. rewrite bytes_eqb_refl in Hc. injection Hc as <-.
        apply agrees_kids. apply agrees_kids in Ha. destruct n; exact Ha.
      + destruct (bytes_eqb y (m_key m)); [discriminate|]. destruct (proj1 Hk _ _ Hn0) as (c & Hc & Ha). rewrite lstep_obj in Hc. exists c. auto.
    - intros y c Hc Hn. rewrite HF in Hn. rewrite HL in Hc. destruct (bytes_eqb y k); [discriminate|]. destruct (bytes_eqb y (m_key m)); [discriminate|]. eauto.
    - rewrite !map_app. cbn [map]. rewrite Hl1, Hl2, Hwl. reflexivity.
  Qed.

  Lemma kids_add w els ns new : lonely (JArr w els) = false -> leaf new = true -> wf new = true -> kids (JArr w els) ns ->
    kids (JArr w (els ++ [Elem [] new []])) (ns ++ [Node (itoa (Z.of_nat (length ns))) (render new) []]).
  Proof.
    intros Hlone Hl Hw (H1 & H2 & H3).
    assert (Hlen : length ns = length els).
    { destruct (cl_len C HC _ _ _ H3) as [->|H]; [|exact H]. destruct els as [|e els]; [reflexivity|].
      assert (E : lonely (JArr w (e :: els)) = true); [|congruence]. apply H2 with (p := itoa 0) (c := e_val e); [|reflexivity].
      apply lstep_arr. exists O, e. auto. }
    split; [|split].
    - intros y n Hn. rewrite find_node_app in Hn. destruct (find_node y ns) as [n0|] eqn:E.
      + injection Hn as ->. destruct (H1 _ _ E) as (c & Hc & Ha). exists c. split; [|exact Ha]. apply lstep_arr in Hc. apply lstep_arr.
        destruct Hc as (i & e & Hi & Hy & Hv). exists i, e. split; [|auto]. rewrite nth_error_app1; [exact Hi|]. apply nth_error_Some. congruence.
      + cbn [find_node n_label] in Hn. destruct (bytes_eqb_spec (itoa (Z.of_nat (length ns))) y) as [<-|]; [|discriminate]. injection Hn as <-.
        exists new. split; [|apply leaf_agrees; assumption]. apply lstep_arr. exists (length els), (Elem [] new []). rewrite Hlen. split; [|auto].
        rewrite nth_error_app2, Nat.sub_diag by lia. reflexivity.
    - intros y c Hy Hn. exfalso. rewrite find_node_app in Hn. destruct (find_node y ns) eqn:E; [discriminate|].
      apply lstep_arr in Hy. destruct Hy as (i & e & Hi & -> & ->). destruct (Nat.lt_ge_cases i (length els)) as [Hlt|Hge].
      + rewrite nth_error_app1 in Hi by exact Hlt.
        assert (E' : lonely (JArr w els) = true); [|congruence]. eapply H2; [|exact E]. apply lstep_arr. exists i, e. auto.
      + assert (i = length els) as ->.
        { assert (i < length (els ++ [Elem [] new []]))%nat as Hb by (apply nth_error_Some; congruence). rewrite app_length in Hb. cbn [length] in Hb. lia. }
        cbn [find_node n_label] in Hn. rewrite Hlen, bytes_eqb_refl in Hn. discriminate.
    - apply (cl_add C HC); [exact H3| |].
      + intros ->. destruct els; [reflexivity|discriminate].
      + intros n Hin. destruct (in_find _ _ Hin) as (m & Hm). destruct (H1 _ _ Hm) as (c & Hc & _). apply lstep_arr in Hc.
        destruct Hc as (i & e & Hi & Hx & _). exists i. split; [apply nth_error_Some; congruence|exact Hx].
  Qed.

  Lemma cut_last w l1 e : exists w' els, cut_elem w l1 e [] = JArr w' els /\ map e_val els = map e_val l1.
  Proof.
    unfold cut_elem. destruct (rev l1) as [|e1 r1] eqn:E; apply (f_equal (@rev _)) in E; rewrite rev_involutive in E; subst l1.
    - eexists _, _. split; reflexivity.
    - eexists _, _. split; [reflexivity|]. cbn [rev]. rewrite !map_app. reflexivity.
  Qed.
  Lemma kids_pop w l1 e ns : lonely (JArr w (l1 ++ [e])) = false -> kids (JArr w (l1 ++ [e])) ns ->
    kids (cut_elem w l1 e []) (filter (fun d => negb (bytes_eqb (n_label d) (itoa (Z.of_nat (length l1))))) ns).
  Proof.
    intros Hlone (H1 & H2 & H3). destruct (cut_last w l1 e) as (w' & els & -> & Hv).
    assert (Hlen : length els = length l1) by (apply (f_equal (@length _)) in Hv; rewrite !map_length in Hv; exact Hv).
    assert (HL : forall y, lstep (JArr w' els) y = if bytes_eqb y (itoa (Z.of_nat (length l1))) then None else lstep (JArr w (l1 ++ [e])) y).
    { intro y. destruct (lstep (JArr w' els) y) as [c|] eqn:E.
      - apply lstep_arr in E. destruct E as (i & e' & Hi & -> & ->). assert (Hlt : (i < length els)%nat) by (apply nth_error_Some; congruence).
        destruct (bytes_eqb_spec (itoa (Z.of_nat i)) (itoa (Z.of_nat (length l1)))) as [E|_]; [apply itoa_inj in E; lia|]. symmetry. apply lstep_arr.
        apply (map_nth_error e_val) in Hi. rewrite Hv in Hi. destruct (nth_error l1 i) as [e1|] eqn:E1; [|apply nth_error_None in E1; lia].
        rewrite (map_nth_error e_val i l1 E1) in Hi. exists i, e1. split; [rewrite nth_error_app1 by lia; exact E1|]. split; [reflexivity|congruence].
      - destruct (bytes_eqb_spec y (itoa (Z.of_nat (length l1)))) as [_|Hy]; [reflexivity|]. symmetry.
        destruct (lstep (JArr w (l1 ++ [e])) y) as [c|] eqn:E2; [|reflexivity]. exfalso. apply lstep_arr in E2. destruct E2 as (i & e' & Hi & -> & ->).
        assert (Hlt : (i < length (l1 ++ [e]))%nat) by (apply nth_error_Some; congruence). rewrite app_length in Hlt. cbn [length] in Hlt.
        assert (i <> length l1) by congruence.
        destruct (nth_error els i) as [e1|] eqn:E1; [|apply nth_error_None in E1; lia].
        assert (lstep (JArr w' els) (itoa (Z.of_nat i)) = Some (e_val e1)); [|congruence]. apply lstep_arr. exists i, e1. auto. }
    split; [|split].
    - intros y n Hn. rewrite find_filter in Hn. rewrite HL. destruct (bytes_eqb y _); [discriminate|]. exact (H1 _ _ Hn).
    - intros y c Hc Hn. rewrite find_filter in Hn. rewrite HL in Hc. destruct (bytes_eqb y _); [discriminate|]. exfalso.
      rewrite (H2 _ _ Hc Hn) in Hlone. discriminate.
    - eapply (cl_pop C HC); [exact H3|exact Hlen|]. intro Hn. rewrite (H2 (itoa (Z.of_nat (length l1))) (e_val e)) in Hlone; [discriminate| |exact Hn].
      apply lstep_arr. exists (length l1), e. split; [rewrite nth_error_app2, Nat.sub_diag by lia; reflexivity|auto].
  Qed.

  Lemma kids_addkv w ms ns k new : nokey k ms -> leaf new = true -> wf new = true -> kids (JObj w ms) ns ->
    kids (JObj w (ms ++ [new_mem k new])) (ns ++ [Node k (render new) []]).
  Proof.
    intros Hno Hl Hw Hk. rewrite nokey_assoc in Hno. eapply kids_obj; [exact Hk| | |].
    3:{ pose proof (proj1 (cl_obj C HC _ _ _) (proj2 (proj2 Hk))) as Hlab. rewrite !map_app, Hlab. reflexivity. }
    - intros y n Hn. rewrite map_app, assoc_split. rewrite find_node_app in Hn. destruct (find_node y ns) as [n0|] eqn:E.
      + injection Hn as ->. destruct (proj1 Hk _ _ E) as (c & Hc & Ha). rewrite lstep_obj in Hc. rewrite Hc. exists c. auto.
      + cbn [find_node n_label] in Hn. destruct (bytes_eqb_spec k y) as [<-|]; [|discriminate]. injection Hn as <-. rewrite Hno.
        exists new. cbn [map kv assoc new_mem m_key m_val]. unfold kv. cbn [m_key m_val assoc new_mem]. rewrite bytes_eqb_refl. split; [reflexivity|].
        left. apply leaf_agrees; assumption.
    - intros y c Hc Hn. rewrite map_app, assoc_split in Hc. rewrite find_node_app in Hn. destruct (find_node y ns) as [n0|] eqn:E; [discriminate|].
      destruct (assoc y (map kv ms)) as [c0|] eqn:Ec; [eauto|]. exfalso. cbn [find_node n_label] in Hn.
      unfold kv in Hc. cbn [map m_key m_val assoc new_mem] in Hc. destruct (bytes_eqb k y); discriminate.
  Qed.
End Upd.
