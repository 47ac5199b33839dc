(** Parser.Insert, and histories of Parser updates. *)
From Coq Require Import String.
From Verif Require Import GoStd Json Spec SpecProofs Domains Core Skip Focus CoreProofs Errors Api ApiProofs Updates Ops History Iter SpecParser Parser ParserProofs ParserGet ParserUpd ParserOps.

Local Open Scope N_scope.

(** ** Weakening the condition on the children *)
Section Weaken.
  Variables C C' : jv -> list node -> Prop.
  Hypothesis HCC : forall v ns, C v ns -> C' v ns.

  Lemma lstep_ind v (P : jv -> Prop) :
    match v with
    | JArr _ els => Forall (fun e => P (e_val e)) els
    | JObj _ ms => Forall (fun m => P (m_val m)) ms
    | _ => True
    end -> forall x c, lstep v x = Some c -> P c.
  Proof.
    destruct v as [s|s|w els|w ms]; intros HP x c H; try discriminate.
    - apply lstep_arr in H. destruct H as (i & e & Hi & _ & ->). rewrite Forall_forall in HP. apply HP. eapply nth_error_In. exact Hi.
    - cbn [lstep] in H. destruct (find_mem x ms) as [m|] eqn:E; [|discriminate]. injection H as <-. unfold find_mem in E. apply find_some in E.
      rewrite Forall_forall in HP. apply HP. apply E.
  Qed.
  Lemma weaken_kids v ns : (forall x c, lstep v x = Some c -> forall n, agreesG C c n -> agreesG C' c n) -> kids C v ns -> kids C' v ns.
  Proof.
    intros H (H1 & H2 & H3). split; [|split; [exact H2|apply HCC; exact H3]]. intros p n Hn. destruct (H1 _ _ Hn) as (c & Hc & Ha). eauto.
  Qed.
  Lemma weaken v : forall n, agreesG C v n -> agreesG C' v n.
  Proof.
    induction v as [s|s|w els IH|w ms IH] using jv_ind'; intros n H; apply agrees_kids; apply agrees_kids in H; destruct H as [Hv Hk]; (split; [exact Hv|]);
      (apply weaken_kids; [|exact Hk]); try (intros; discriminate).
    - apply (lstep_ind (JArr w els) (fun c => forall n, agreesG C c n -> agreesG C' c n)). exact IH.
    - apply (lstep_ind (JObj w ms) (fun c => forall n, agreesG C c n -> agreesG C' c n)). exact IH.
  Qed.
  Lemma weaken_holds p d : p_holds C p d -> p_holds C' p d.
  Proof. intros (Hj & Hw & Hk). split; [exact Hj|]. split; [exact Hw|]. apply weaken_kids; [intros; apply weaken; assumption|exact Hk]. Qed.
End Weaken.

Lemma positional_nodup ns : positional ns -> NoDup (map n_label ns).
Proof.
  intro Hp. apply NoDup_nth_error. intros i j Hi Hij. rewrite map_length in Hi.
  destruct (nth_error ns i) as [a|] eqn:Ea; [|apply nth_error_None in Ea; lia].
  rewrite (map_nth_error n_label i ns Ea) in Hij. destruct (nth_error ns j) as [c|] eqn:Ec.
  - rewrite (map_nth_error n_label j ns Ec) in Hij. injection Hij as Hij. rewrite (Hp _ _ Ea), (Hp _ _ Ec) in Hij. apply itoa_inj in Hij. lia.
  - apply nth_error_None in Ec. assert (nth_error (map n_label ns) j = None) by (apply nth_error_None; rewrite map_length; lia). congruence.
Qed.
Lemma counted_weak v ns : counted v ns -> counted1 v ns.
Proof.
  destruct v as [s|s|w els|w ms]; cbn [counted counted1]; auto. intros [->|[H Hp]]; [left; reflexivity|right]. split; [exact H|].
  apply positional_nodup. exact Hp.
Qed.

(** ** The nodes after Insert *)
Lemma find_node_nth ns : NoDup (map n_label ns) -> forall i n, nth_error ns i = Some n -> find_node (n_label n) ns = Some n.
Proof.
  induction ns as [|a ns IH]; intros Hd [|i] n Hi; try discriminate; cbn [nth_error find_node map] in *.
  - injection Hi as ->. rewrite bytes_eqb_refl. reflexivity.
  - inversion Hd; subst. destruct (bytes_eqb_spec (n_label a) (n_label n)) as [E|_]; [|eauto].
    exfalso. apply H1. rewrite E. apply in_map. eapply nth_error_In. exact Hi.
Qed.
Lemma find_node_inv y ns n : find_node y ns = Some n -> n_label n = y /\ exists i, nth_error ns i = Some n.
Proof.
  induction ns as [|a ns IH]; cbn [find_node]; [discriminate|]. destruct (bytes_eqb_spec (n_label a) y) as [E|E]; intro H.
  - injection H as ->. split; [exact E|]. exists O. reflexivity.
  - destruct (IH H) as (Hl & i & Hi). split; [exact Hl|]. exists (S i). exact Hi.
Qed.
Lemma relabel_nth ns z : forall k i, nth_error (relabel ns k z) i =
  option_map (fun n => if (z <=? Z.of_nat (k + i))%Z then with_label (itoa (Z.of_nat (k + i) + 1)) n else n) (nth_error ns i).
Proof.
  induction ns as [|n ns IH]; intros k [|i]; cbn [relabel nth_error option_map]; try reflexivity.
  - rewrite Nat.add_0_r. reflexivity.
  - rewrite IH. replace (S k + i)%nat with (k + S i)%nat by lia. reflexivity.
Qed.
Lemma relabel_length ns z : forall k, length (relabel ns k z) = length ns.
Proof. induction ns as [|n ns IH]; intro k; cbn [relabel length]; [reflexivity|]. rewrite IH. reflexivity. Qed.
Lemma relabel_app l1 l2 z : forall k, relabel (l1 ++ l2) k z = relabel l1 k z ++ relabel l2 (k + length l1) z.
Proof.
  induction l1 as [|n l1 IH]; intro k; cbn [app relabel length]; [rewrite Nat.add_0_r; reflexivity|]. rewrite IH.
  replace (S k + length l1)%nat with (k + S (length l1))%nat by lia. reflexivity.
Qed.
Lemma relabel_twice ns z : forall k, relabel (relabel ns k z) k z = relabel ns k z.
Proof.
  induction ns as [|n ns IH]; intro k; cbn [relabel]; [reflexivity|]. rewrite IH. f_equal.
  destruct (z <=? Z.of_nat k)%Z; [|reflexivity]. destruct n. reflexivity.
Qed.

Definition inserted (ns : list node) (z : nat) (t : bytes) : list node :=
  relabel ns 0 (Z.of_nat z) ++ [Node (itoa (Z.of_nat z)) t []].
(** Where the node at a position of [inserted] belongs *)
Definition shift (z len i : nat) : nat := if (i =? len)%nat then z else if (z <=? i)%nat then S i else i.

Lemma with_label_label l n : n_label (with_label l n) = l. Proof. destruct n. reflexivity. Qed.

Lemma inserted_nth ns z t i n : positional ns -> nth_error (inserted ns z t) i = Some n ->
  n_label n = itoa (Z.of_nat (shift z (length ns) i)) /\
  (i = length ns /\ n = Node (itoa (Z.of_nat z)) t [] \/
   exists m, nth_error ns i = Some m /\ (i < length ns)%nat /\ n_value n = n_value m /\ n_down n = n_down m).
Proof.
  intros Hp Hi. unfold inserted in Hi. unfold shift. destruct (Nat.lt_ge_cases i (length ns)) as [Hlt|Hge].
  - rewrite nth_error_app1 in Hi by (rewrite relabel_length; exact Hlt). rewrite relabel_nth in Hi. cbn [Nat.add] in Hi.
    destruct (nth_error ns i) as [m|] eqn:Em; [|discriminate]. cbn [option_map] in Hi. injection Hi as Hi.
    replace (i =? length ns)%nat with false by (symmetry; apply Nat.eqb_neq; lia).
    destruct (Z.leb_spec (Z.of_nat z) (Z.of_nat i)) as [Hz|Hz].
    + replace (z <=? i)%nat with true by (symmetry; apply Nat.leb_le; lia). subst n. rewrite with_label_label. split; [f_equal; lia|].
      right. exists m. split; [reflexivity|]. split; [exact Hlt|]. destruct m; split; reflexivity.
    + replace (z <=? i)%nat with false by (symmetry; apply Nat.leb_gt; lia). subst n. split; [apply Hp; exact Em|]. right. eauto 6.
  - rewrite nth_error_app2 in Hi by (rewrite relabel_length; exact Hge). rewrite relabel_length in Hi.
    destruct (i - length ns)%nat as [|j] eqn:Ej; [|destruct j; discriminate]. cbn in Hi. injection Hi as <-.
    replace (i =? length ns)%nat with true by (symmetry; apply Nat.eqb_eq; lia). split; [reflexivity|]. left. split; [lia|reflexivity].
Qed.
Lemma inserted_length ns z t : length (inserted ns z t) = S (length ns).
Proof. unfold inserted. rewrite app_length, relabel_length. cbn [length]. lia. Qed.
Lemma inserted_nodup ns z t : positional ns -> (z < length ns)%nat -> NoDup (map n_label (inserted ns z t)).
Proof.
  intros Hp Hz. apply NoDup_nth_error. intros i j Hi Hij. rewrite map_length in Hi.
  destruct (nth_error (inserted ns z t) i) as [a|] eqn:Ea; [|apply nth_error_None in Ea; lia].
  rewrite (map_nth_error n_label i _ Ea) in Hij. destruct (nth_error (inserted ns z t) j) as [c|] eqn:Ec.
  - rewrite (map_nth_error n_label j _ Ec) in Hij. injection Hij as Hij.
    rewrite (proj1 (inserted_nth _ _ _ _ _ Hp Ea)), (proj1 (inserted_nth _ _ _ _ _ Hp Ec)) in Hij. apply itoa_inj in Hij.
    assert (Hj : (j < length (inserted ns z t))%nat) by (apply nth_error_Some; congruence). rewrite inserted_length in Hi, Hj. revert Hij. unfold shift.
    destruct (Nat.eqb_spec i (length ns)), (Nat.eqb_spec j (length ns)), (Nat.leb_spec z i), (Nat.leb_spec z j); lia.
  - apply nth_error_None in Ec. assert (nth_error (map n_label (inserted ns z t)) j = None) by (apply nth_error_None; rewrite map_length; lia). congruence.
Qed.

Lemma full_nodes C w els ns : closed C -> lonely (JArr w els) = false -> kids C (JArr w els) ns -> length ns = length els.
Proof.
  intros HC Hlone (H1 & H2 & H3). destruct (cl_len C HC _ _ _ H3) as [->|H]; [|exact H]. destruct els as [|e els]; [reflexivity|].
  assert (E : lonely (JArr w (e :: els)) = true); [|congruence]. apply H2 with (p := itoa 0) (c := e_val e); [|reflexivity].
  apply lstep_arr. exists O, e. auto.
Qed.

Lemma kids_insert w l1 e l2 ns v : lonely (JArr w (l1 ++ e :: l2)) = false -> leaf v = true -> wf v = true ->
  kids counted (JArr w (l1 ++ e :: l2)) ns -> kids counted1 (ins_elem w l1 v e l2) (inserted ns (length l1) (render v)).
Proof.
  intros Hlone Hlv Hwv Hk. pose proof (full_nodes counted w _ ns counted_closed Hlone Hk) as Hlen.
  rewrite app_length in Hlen. cbn [length] in Hlen.
  assert (Hp : positional ns).
  { pose proof (proj2 (proj2 Hk)) as H. cbn [counted] in H. destruct H as [->|H]; [cbn in Hlen; lia|apply H]. }
  set (z := length l1) in *. assert (Hz : (z < length ns)%nat) by lia.
  pose proof (inserted_nodup ns z (render v) Hp Hz) as Hd. unfold ins_elem. set (ve := Elem (e_pre e) v []). set (e' := Elem [] (e_val e) (e_post e)).
  (* values of the new array by position in the old one *)
  assert (Hold : forall i a, nth_error (l1 ++ e :: l2) i = Some a ->
    exists a', nth_error (l1 ++ ve :: e' :: l2) (if (z <=? i)%nat then S i else i) = Some a' /\ e_val a' = e_val a).
  { intros i a Hi. destruct (Nat.leb_spec z i) as [Hzi|Hzi].
    - unfold z in Hzi. rewrite nth_error_app2 in * by lia. replace (S i - length l1)%nat with (S (i - length l1)) by lia. cbn [nth_error].
      destruct (i - length l1)%nat as [|j]; cbn [nth_error] in *; [injection Hi as <-; exists e'; auto|eauto].
    - unfold z in Hzi. rewrite nth_error_app1 in * by lia. eauto. }
  destruct Hk as (H1 & H2 & H3). split; [|split].
  - intros y n Hn. destruct (find_node_inv _ _ _ Hn) as (Hy & i & Hi). destruct (inserted_nth _ _ _ _ _ Hp Hi) as (Hlab & [[-> ->]|(m & Hm & Hlt & Hv & Hdn)]).
    + exists v. split; [|apply (leaf_agrees counted1 counted1_closed); assumption]. apply lstep_arr. exists z, ve. split; [|rewrite <- Hy; auto].
      rewrite nth_error_app2 by (unfold z; lia). unfold z. rewrite Nat.sub_diag. reflexivity.
    + assert (Hf : find_node (itoa (Z.of_nat i)) ns = Some m) by (rewrite <- (Hp _ _ Hm); eapply find_node_nth; [apply positional_nodup; exact Hp|exact Hm]).
      destruct (H1 _ _ Hf) as (c & Hc & Ha). exists c. split.
      * apply lstep_arr in Hc. destruct Hc as (i' & a & Hi' & Hii & ->). apply itoa_inj in Hii. assert (i' = i) by lia. subst i'.
        destruct (Hold _ _ Hi') as (a' & Ha' & Hva). apply lstep_arr. exists (shift z (length ns) i), a'. split; [|rewrite <- Hy, Hlab; auto].
        unfold shift. replace (i =? length ns)%nat with false by (symmetry; apply Nat.eqb_neq; lia). exact Ha'.
      * apply (weaken counted counted1 counted_weak) in Ha. apply agrees_kids. apply agrees_kids in Ha. rewrite Hv, Hdn. exact Ha.
  - intros y c Hy Hn. exfalso. apply lstep_arr in Hy. destruct Hy as (j & a & Hj & -> & ->).
    assert (Hlt : (j < S (length ns))%nat).
    { rewrite Hlen. assert (j < length (l1 ++ ve :: e' :: l2))%nat as Hb by (apply nth_error_Some; congruence). rewrite app_length in Hb. cbn [length] in Hb. lia. }
    set (i := if (j =? z)%nat then length ns else if (j <? z)%nat then j else pred j).
    assert (Hi : exists n, nth_error (inserted ns z (render v)) i = Some n).
    { destruct (nth_error (inserted ns z (render v)) i) eqn:E; [eauto|]. apply nth_error_None in E. rewrite inserted_length in E. exfalso. revert E. unfold i.
      destruct (Nat.eqb_spec j z), (Nat.ltb_spec j z); lia. }
    destruct Hi as (n & Hi). pose proof (find_node_nth _ Hd _ _ Hi) as Hf. rewrite (proj1 (inserted_nth _ _ _ _ _ Hp Hi)) in Hf.
    replace (shift z (length ns) i) with j in Hf; [congruence|]. unfold shift, i.
    destruct (Nat.eqb_spec j z) as [->|Hjz]; [rewrite Nat.eqb_refl; reflexivity|].
    destruct (Nat.ltb_spec j z).
    + replace (j =? length ns)%nat with false by (symmetry; apply Nat.eqb_neq; lia). replace (z <=? j)%nat with false by (symmetry; apply Nat.leb_gt; lia). reflexivity.
    + replace (pred j =? length ns)%nat with false by (symmetry; apply Nat.eqb_neq; lia). replace (z <=? pred j)%nat with true by (symmetry; apply Nat.leb_le; lia). lia.
  - right. rewrite inserted_length, app_length. cbn [length]. split; [lia|exact Hd].
Qed.

(** ** Parser.Insert: not at the root of a text with blanks around it, and not into an array of one scalar or string *)

Lemma n_insert_ok ns z : (z < length ns)%nat -> n_insert ns (Z.of_nat z) = Ok (relabel ns 0 (Z.of_nat z)).
Proof.
  intro H. unfold n_insert. destruct ns as [|n ns]; [cbn in H; lia|].
  replace (Z.of_nat (length (n :: ns)) - 1 <? Z.of_nat z)%Z with false by (symmetry; apply Z.ltb_ge; lia).
  replace (Z.of_nat z <? 0)%Z with false by (symmetry; apply Z.ltb_ge; lia). reflexivity.
Qed.
Lemma removelast_relabel ns x z k : removelast (relabel (ns ++ [x]) k z) = relabel ns k z.
Proof. rewrite relabel_app. cbn [relabel]. apply removelast_last. Qed.

Theorem call_insert p d q z v c' : p_holds counted p d -> legal d (OInsert q z v) -> p_insertable d q v ->
  meaning (OInsert q z v) (content (d_val d)) = Some c' ->
  exists d' p', call (OInsert q z v) (text d) = Done (text d') /\ p_call (OInsert q z v) p = PRet p' None /\
    p_holds counted1 p' d' /\ matches d d' c'.
Proof.
  intros Hp (Hwv & Hmax & w & els & Hl & Hlay) (Hlv & Hs & Hroot & Hlone') Hm. specialize (Hlone' _ _ Hl). rename Hlone' into Hlone.
  pose proof Hp as (Hj & Hw & Hk). destruct (modify_focus _ _ _ _ Hm) as (pre & u & post & Hf & Hg0).
  pose proof (focus_lookup _ _ _ _ _ Hf) as E. rewrite Hl in E. injection E as <-. pose proof (focus_wf _ _ _ _ _ Hf (wf_doc_val _ Hw)) as Hwu.
  cbn [content d_insert] in Hg0. rewrite nth_z_map in Hg0. destruct (nth_z els z) as [e|] eqn:Hz; [|contradiction Hg0; reflexivity].
  pose proof Hz as Hz2. destruct (nth_z_split _ _ _ Hz) as (l1 & l2 & -> & ->). clear Hg0.
  assert (Hi : insertable l1 e l2).
  { unfold insertable. destruct Hlay as [H|[H|(e' & H & He)]].
    - right. left. intros ->. rewrite app_length in H. cbn [length] in H. lia.
    - left. rewrite app_length in H. cbn [length] in H. destruct l1; [reflexivity|cbn in H; lia].
    - right. right. congruence. }
  pose proof (insert_arr d q pre w l1 e l2 post v Hw Hf Hmax Hi) as Hins.
  destruct (walk_found counted q _ _ _ Hk Hl Hs) as (m & Hmw & _ & Hkm).
  pose proof (full_nodes counted w _ _ counted_closed Hlone Hkm) as Hlen. rewrite app_length in Hlen. cbn [length] in Hlen.
  set (z := length l1) in *. assert (Hzl : (z < length (n_down m))%nat) by lia.
  set (g := fun n => append_node (Node (itoa (Z.of_nat z)) (render v) []) (with_down (relabel (n_down m) 0 (Z.of_nat z)) n)).
  pose proof (weaken_holds counted counted1 counted_weak p d Hp) as Hp1.
  destruct (at_container counted1 counted1_closed p d q _ (ins_elem w l1 v e l2) g pre post Hp1 Hf Hs)
    as (v' & Hmod & Ht & Hwd & Hcont & Hr & p2 & R1 & _ & R3).
  - apply ins_elem_wf; assumption.
  - reflexivity.
  - intro n. unfold g. rewrite append_label. apply with_down_label.
  - intros m' Hm' _. rewrite Hmw in Hm'. injection Hm' as <-. unfold g. rewrite append_down, with_down_down. apply kids_insert; assumption.
  - set (d' := Doc (d_pre d) v' (d_post d)) in *. rewrite <- Ht in Hins.
    assert (Hmat : matches d d' c').
    { apply (Hcont (d_insert (Z.of_nat z) (content v))); [apply ins_elem_content|exact Hm]. }
    assert (Hg : P_Get p q = Ok (render (JArr w (l1 ++ e :: l2)))) by (apply (get_container counted p d q _ Hp); [exact Hroot|exact Hl|exact Hs|reflexivity]).
    destruct (hd_last 91 (w ++ join (map elem_text (l1 ++ e :: l2))) 93) as (Hhd & Hlast & Hle).
    assert (Er : render (JArr w (l1 ++ e :: l2)) = 91 :: (w ++ join (map elem_text (l1 ++ e :: l2))) ++ [93]) by (rewrite render_arr, <- app_assoc; reflexivity).
    rewrite <- Er in Hhd, Hlast, Hle. destruct (opens_leaf v Hlv Hwv) as (c0 & r0 & Ev & Hc0).
    destruct q as [|x q].
    + exists d', (Par (g (p_core p)) (text d')). split; [exact Hins|]. split; [|split; [apply Hr; reflexivity|exact Hmat]].
      cbn [p_call]. unfold P_Insert. rewrite Hg. unfold g. rewrite Ev in *. cbn [p_bind]. rewrite Hle, Hhd, Hlast. cbn [N.eqb Pos.eqb andb opens].
      rewrite Hc0, andb_false_r. cbn in Hmw. injection Hmw as <-. rewrite n_insert_ok by exact Hzl. cbn [p_bind]. rewrite Hj, Hins.
      cbn [take_or_fail p_core]. rewrite append_down, with_down_down.
      rewrite n_insert_ok by (rewrite app_length, relabel_length; cbn [length]; lia). cbn [p_bind]. rewrite removelast_relabel, relabel_twice.
      destruct (p_core p) as [l0 v0 d0]. reflexivity.
    + exists d', p2. split; [exact Hins|]. split; [|split; [exact R3|exact Hmat]].
      cbn [p_call]. unfold P_Insert. rewrite Hg, Hmw. unfold g in R1. rewrite Ev in *. cbn [p_bind]. rewrite Hle, Hhd, Hlast. cbn [N.eqb Pos.eqb andb opens].
      rewrite Hc0, andb_false_r. rewrite n_insert_ok by exact Hzl. cbn [p_bind]. cbn [call] in Hins. rewrite Hj, Hins. cbn [take_or_fail p_core]. exact R1.
Qed.

(** ** Histories *)

Definition allowed (i : bool) : jv -> list node -> Prop := if i then counted else counted1.
Lemma allowed_closed i : closed (allowed i). Proof. destruct i; [apply counted_closed|apply counted1_closed]. Qed.

Theorem p_history i d ops c' : p_lawful i d ops c' -> forall p, p_holds (allowed i) p d ->
  exists d' p', run ops (text d) = Some (text d') /\ p_run ops p = Some p' /\ p_holds counted1 p' d' /\ content (d_val d') = c'.
Proof.
  induction 1 as [i d|i d o ops c1 c2 Hl Hpl Hm _ IH|d q z v ops c1 c2 Hl Hpl Hm _ IH]; intros p Hp.
  - exists d, p. split; [reflexivity|]. split; [reflexivity|]. split; [|reflexivity].
    destruct i; [exact (weaken_holds counted counted1 counted_weak p d Hp)|exact Hp].
  - destruct (call_follows (allowed i) (allowed_closed i) p d o c1 Hp Hl Hpl Hm) as (d1 & p1 & Hc & Hpc & Hp1 & (Hw1 & _ & _ & Hc1)).
    cbn [run p_run]. rewrite Hc, Hpc. apply (IH d1 Hw1 Hc Hc1 p1 Hp1).
  - destruct (call_insert p d q z v c1 Hp Hl Hpl Hm) as (d1 & p1 & Hc & Hpc & Hp1 & (Hw1 & _ & _ & Hc1)).
    cbn [run p_run]. rewrite Hc, Hpc. apply (IH d1 Hw1 Hc Hc1 p1 Hp1).
Qed.

(** ** What the answers of a parser say *)

Lemma holds_answers C p d : p_holds C p d -> answers p d.
Proof.
  intro Hp. split; [apply Hp|]. split; [|split].
  - intros q v Hl Hq Hs. split; [eapply p_get_present; eassumption|]. apply get_present; [apply Hp|exact Hq|exact Hl].
  - intros q t Hf Hg. destruct (p_get_sound C p d q t Hp Hf Hg) as (v & Hl & _ & H). split; [congruence|exact H].
  - intros q Hf. eapply p_get_total; eassumption.
Qed.

Theorem parse_answers d : wf_doc d = true -> container (d_val d) = true -> exists p, Parse (text d) = Ok p /\ answers p d.
Proof. intros Hw Hc. destruct (parse_holds d Hw Hc) as (p & Hp & Hh). exists p. split; [exact Hp|]. eapply holds_answers. exact Hh. Qed.

Theorem parse_history d ops c' : wf_doc d = true -> container (d_val d) = true -> p_lawful true d ops c' ->
  exists p d' p', Parse (text d) = Ok p /\ p_run ops p = Some p' /\ run ops (text d) = Some (text d') /\
    wf_doc d' = true /\ content (d_val d') = c' /\ answers p' d'.
Proof.
  intros Hw Hc Hl. destruct (parse_holds d Hw Hc) as (p & Hp & Hh). destruct (p_history _ _ _ _ Hl p Hh) as (d' & p' & H1 & H2 & H3 & H4).
  exists p, d', p'. split; [exact Hp|]. split; [exact H2|]. split; [exact H1|]. split; [apply H3|]. split; [exact H4|]. eapply holds_answers. exact H3.
Qed.

(** ** One call after Parse *)
Lemma parse_found d q v : wf_doc d = true -> container (d_val d) = true ->
  lookup (d_val d) q = Some v -> q <> [] -> straight (d_val d) q = true ->
  exists p, Parse (text d) = Ok p /\ P_Get p q = Ok (bare v) /\ Get (text d) q = Ok (bare v).
Proof. intros Hw Hc Hl Hq Hs. destruct (parse_answers d Hw Hc) as (p & Hp & _ & H & _). exists p. split; [exact Hp|]. apply H; assumption. Qed.
Lemma parse_sound d p q t : wf_doc d = true -> fits (text d) -> container (d_val d) = true ->
  Parse (text d) = Ok p -> P_Get p q = Ok t -> lookup (d_val d) q <> None /\ Get (text d) q = Ok t.
Proof.
  intros Hw Hf Hc Hp Hg. destruct (parse_answers d Hw Hc) as (p' & Hp' & _ & _ & H & _). rewrite Hp in Hp'. injection Hp' as <-. exact (H q t Hf Hg).
Qed.
Lemma parse_absent d p q : wf_doc d = true -> fits (text d) -> container (d_val d) = true -> Parse (text d) = Ok p -> lookup (d_val d) q = None ->
  exists q0 x r, q = q0 ++ x :: r /\ P_Get p q = Err (EKeyNotFound x) /\ lookup (d_val d) q0 <> None /\
    (straight (d_val d) q = true -> lookup (d_val d) (q0 ++ [x]) = None).
Proof.
  intros Hw Hf Hc Hp Hl. destruct (parse_answers d Hw Hc) as (p' & Hp' & _ & _ & Hs & H). rewrite Hp in Hp'. injection Hp' as <-.
  destruct (H q Hf) as [(t & Ht)|H']; [|exact H']. destruct (Hs q t Hf Ht) as [Hn _]. congruence.
Qed.
Lemma parse_leaf d : wf_doc d = true -> container (d_val d) = false -> Parse (text d) = Err (EBadJSON 0).
Proof.
  unfold wf_doc. intros Hw Hc. nbool. unfold Parse, pCore. destruct (length (text d) <? 2)%nat; [reflexivity|].
  destruct (render_cons (d_val d)) as (c & t & Er & Hnw); [assumption|].
  assert (Hs : skip_space (text d) 0 = Ok (length (d_pre d))).
  { unfold text. rewrite Er. cbn [app]. apply (skip_space_ws (d_pre d) c (t ++ d_post d) 0); [assumption|]. exact Hnw. }
  rewrite Hs. cbn [bind].
  replace (skipn (length (d_pre d)) (text d)) with (render (d_val d) ++ d_post d)
    by (unfold text; rewrite skipn_length_app; reflexivity).
  destruct (p_leaf (text d) (d_val d) (d_pre d) (d_post d) (length (d_pre d)) 0 [] 0 0 [] [0%nat] [Fr [] [] []]) as (t1 & t2 & ->); try assumption; [reflexivity|].
  pose proof (p_plains (text d) (d_post d) (d_pre d ++ render (d_val d)) [] t1 t2 [] 0 0 [] [0%nat] [Fr [] [] []]) as E2.
  rewrite app_nil_r in E2. rewrite E2 by (apply ws_plains; assumption). reflexivity.
Qed.
Lemma parse_total d : wf_doc d = true -> container (d_val d) = true ->
  exists p, Parse (text d) = Ok p /\ P_JSON p = text d /\ answers p d.
Proof. intros Hw Hc. destruct (parse_answers d Hw Hc) as (p & Hp & Ha). exists p. split; [exact Hp|]. split; [apply Ha|exact Ha]. Qed.

Lemma parse_call d o c' : wf_doc d = true -> container (d_val d) = true -> legal d o -> p_legal d o -> meaning o (content (d_val d)) = Some c' ->
  exists p d' p', Parse (text d) = Ok p /\ p_call o p = PRet p' None /\ call o (text d) = Done (text d') /\
    wf_doc d' = true /\ content (d_val d') = c' /\ answers p' d'.
Proof.
  intros Hw Hc Hl Hpl Hm. destruct (parse_holds d Hw Hc) as (p & Hp & Hh).
  destruct (call_follows counted counted_closed p d o c' Hh Hl Hpl Hm) as (d' & p' & H1 & H2 & H3 & (H4 & _ & _ & H5)).
  exists p, d', p'. do 5 (split; [assumption|]). eapply holds_answers. exact H3.
Qed.
Lemma parse_set d q v old c' : wf_doc d = true -> container (d_val d) = true ->
  legal d (OSet q v) -> leaf v = true -> straight (d_val d) q = true -> lookup (d_val d) q = Some old -> hollow old = true ->
  meaning (OSet q v) (content (d_val d)) = Some c' ->
  exists p d' p', Parse (text d) = Ok p /\ P_Set p (render v) q = PRet p' None /\ Set_ (text d) (render v) q = Done (text d') /\
    wf_doc d' = true /\ content (d_val d') = c' /\ answers p' d'.
Proof. intros Hw Hc Hl Hv Hs Ho Hh Hm. apply (parse_call d (OSet q v) c' Hw Hc Hl); [|exact Hm]. repeat split; try assumption. exists old. auto. Qed.
Lemma parse_delete d q x c' : wf_doc d = true -> container (d_val d) = true ->
  legal d (ODelete q x) -> p_legal d (ODelete q x) -> meaning (ODelete q x) (content (d_val d)) = Some c' ->
  exists p d' p', Parse (text d) = Ok p /\ P_Delete p (q ++ [x]) = PRet p' None /\ Delete (text d) (q ++ [x]) = Done (text d') /\
    wf_doc d' = true /\ content (d_val d') = c' /\ answers p' d'.
Proof. exact (parse_call d (ODelete q x) c'). Qed.
Lemma parse_add d q v c' : wf_doc d = true -> container (d_val d) = true ->
  legal d (OAdd q v) -> p_legal d (OAdd q v) -> meaning (OAdd q v) (content (d_val d)) = Some c' ->
  exists p d' p', Parse (text d) = Ok p /\ P_Add p (render v) q = PRet p' None /\ Add_ (text d) (render v) q = Done (text d') /\
    wf_doc d' = true /\ content (d_val d') = c' /\ answers p' d'.
Proof. exact (parse_call d (OAdd q v) c'). Qed.
Lemma parse_addkv d q k v c' : wf_doc d = true -> container (d_val d) = true ->
  legal d (OAddKV q k v) -> p_legal d (OAddKV q k v) -> meaning (OAddKV q k v) (content (d_val d)) = Some c' ->
  exists p d' p', Parse (text d) = Ok p /\ P_AddKeyValue p k (render v) q = PRet p' None /\
    AddKeyValue (text d) k (Some (render v)) q = Done (text d') /\
    wf_doc d' = true /\ content (d_val d') = c' /\ answers p' d'.
Proof. exact (parse_call d (OAddKV q k v) c'). Qed.
Lemma parse_setkey d q x k c' : wf_doc d = true -> container (d_val d) = true ->
  legal d (OSetKey q x k) -> p_legal d (OSetKey q x k) -> meaning (OSetKey q x k) (content (d_val d)) = Some c' ->
  exists p d' p', Parse (text d) = Ok p /\ P_SetKey p k (q ++ [x]) = PRet p' None /\ SetKey (text d) k (q ++ [x]) = Done (text d') /\
    wf_doc d' = true /\ content (d_val d') = c' /\ answers p' d'.
Proof. exact (parse_call d (OSetKey q x k) c'). Qed.
Lemma parse_insert d q z v c' : wf_doc d = true -> container (d_val d) = true ->
  legal d (OInsert q z v) -> p_insertable d q v -> meaning (OInsert q z v) (content (d_val d)) = Some c' ->
  exists p d' p', Parse (text d) = Ok p /\ P_Insert p z (render v) q = PRet p' None /\ Insert (text d) z (render v) q = Done (text d') /\
    wf_doc d' = true /\ content (d_val d') = c' /\ answers p' d'.
Proof.
  intros Hw Hc Hl Hpl Hm. destruct (parse_holds d Hw Hc) as (p & Hp & Hh).
  destruct (call_insert p d q z v c' Hh Hl Hpl Hm) as (d' & p' & H1 & H2 & H3 & (H4 & _ & _ & H5)).
  exists p, d', p'. do 5 (split; [assumption|]). eapply holds_answers. exact H3.
Qed.

(** Two parsers with the same document answer every straight path the same way. *)
Lemma prefix_split (q0 q1 : list bytes) x y r s : q0 ++ x :: r = q1 ++ y :: s ->
  (q0 = q1 /\ x = y) \/ (exists t, q1 = q0 ++ x :: t) \/ (exists t, q0 = q1 ++ y :: t).
Proof.
  revert q1. induction q0 as [|a q0 IH]; intros [|c q1] H; cbn [app] in H; injection H; intros; subst.
  - auto.
  - right. left. exists q1. reflexivity.
  - right. right. exists q0. reflexivity.
  - destruct (IH q1) as [[-> ->]|[[t ->]|[t ->]]]; [assumption|auto|right; left; exists t; reflexivity|right; right; exists t; reflexivity].
Qed.
Lemma lookup_stuck v q x t : lookup v (q ++ [x]) = None -> lookup v (q ++ x :: t) = None.
Proof. revert v. induction q as [|y q IH]; intros v H; cbn [app lookup] in *; destruct (child v _); auto; discriminate. Qed.

Theorem answers_same p1 p2 d : answers p1 d -> answers p2 d -> fits (text d) ->
  forall q, straight (d_val d) q = true -> P_Get p1 q = P_Get p2 q.
Proof.
  intros (J1 & F1 & S1 & T1) (J2 & F2 & S2 & T2) Hf q Hs. destruct q as [|y q]; [cbn; congruence|].
  destruct (lookup (d_val d) (y :: q)) as [v|] eqn:Hl.
  - destruct (F1 _ _ Hl ltac:(discriminate) Hs) as [-> _]. destruct (F2 _ _ Hl ltac:(discriminate) Hs) as [-> _]. reflexivity.
  - destruct (T1 (y :: q) Hf) as [(t & Ht)|(q1 & x1 & r1 & Q1 & E1 & N1 & A1)]; [destruct (S1 _ _ Hf Ht); congruence|].
    destruct (T2 (y :: q) Hf) as [(t & Ht)|(q2 & x2 & r2 & Q2 & E2 & N2 & A2)]; [destruct (S2 _ _ Hf Ht); congruence|].
    rewrite E1, E2. specialize (A1 Hs). specialize (A2 Hs). rewrite Q1 in Q2.
    destruct (prefix_split _ _ _ _ _ _ Q2) as [[-> ->]|[[t ->]|[t ->]]]; [reflexivity| |].
    + contradiction N2. apply lookup_stuck. exact A1.
    + contradiction N1. apply lookup_stuck. exact A2.
Qed.

Theorem history_like_new d ops c' p p' : wf_doc d = true -> Parse (text d) = Ok p -> p_lawful true d ops c' -> p_run ops p = Some p' ->
  exists d', p_json p' = text d' /\ wf_doc d' = true /\ content (d_val d') = c' /\
    forall p2, Parse (p_json p') = Ok p2 -> fits (p_json p') -> forall q, straight (d_val d') q = true -> P_Get p' q = P_Get p2 q.
Proof.
  intros Hw Hp Hl Hr. assert (Hc : container (d_val d) = true).
  { destruct (container (d_val d)) eqn:E; [reflexivity|]. rewrite (parse_leaf _ Hw E) in Hp. discriminate. }
  destruct (parse_history d ops c' Hw Hc Hl) as (q & d' & q' & Hq & Hr' & _ & Hw' & Hc' & Ha). rewrite Hp in Hq. injection Hq as <-.
  rewrite Hr in Hr'. injection Hr' as <-. exists d'. pose proof (proj1 Ha) as Hj. split; [exact Hj|]. split; [exact Hw'|]. split; [exact Hc'|].
  intros p2 Hp2 Hf. rewrite Hj in *. apply answers_same; [exact Ha| |exact Hf].
  assert (Hct : container (d_val d') = true).
  { destruct (container (d_val d')) eqn:E; [reflexivity|]. rewrite (parse_leaf _ Hw' E) in Hp2. discriminate. }
  destruct (parse_answers d' Hw' Hct) as (p3 & Hp3 & Ha3). congruence.
Qed.
