(** Trees without insignificant whitespace. *)
From Coq Require Import String.
From Verif Require Import GoStd Json Focus Skip ApiProofs Updates.

Local Open Scope N_scope.

Fixpoint neat (v : jv) : Prop :=
  match v with
  | JScalar _ | JString _ => True
  | JArr w els => w = [] /\ fold_right (fun e P => (e_pre e = [] /\ neat (e_val e) /\ e_post e = []) /\ P) True els
  | JObj w ms => w = [] /\ fold_right (fun m P => (m_pre m = [] /\ m_mid m = [] /\ m_mid2 m = [] /\ neat (m_val m) /\ m_post m = []) /\ P) True ms
  end.
Definition neat_e (e : elem jv) : Prop := e_pre e = [] /\ neat (e_val e) /\ e_post e = [].
Definition neat_m (m : mem jv) : Prop := m_pre m = [] /\ m_mid m = [] /\ m_mid2 m = [] /\ neat (m_val m) /\ m_post m = [].
Lemma fold_and {A} (P : A -> Prop) l : fold_right (fun x Q => P x /\ Q) True l <-> Forall P l.
Proof.
  induction l as [|x l IH]; cbn [fold_right]; [split; constructor|]. rewrite IH. split; [intros [H1 H2]; constructor; assumption|intro H; inversion H; auto].
Qed.
Lemma neat_arr w els : neat (JArr w els) <-> w = [] /\ Forall neat_e els.
Proof. cbn [neat]. rewrite (fold_and neat_e). tauto. Qed.
Lemma neat_obj w ms : neat (JObj w ms) <-> w = [] /\ Forall neat_m ms.
Proof. cbn [neat]. rewrite (fold_and neat_m). tauto. Qed.

(** ** What the updates write *)
Lemma neat_cut_elem w l1 e l2 : neat (JArr w (l1 ++ e :: l2)) -> neat (cut_elem w l1 e l2).
Proof.
  rewrite neat_arr, Forall_app. intros (-> & H1 & H2). inversion H2 as [|? ? (P1 & _ & P3) H3]; subst. unfold cut_elem. destruct l2 as [|e2 l2].
  - destruct l1 as [|e1 l1] using rev_ind; cbn [rev]; [rewrite neat_arr, P1, P3; auto|].
    rewrite rev_app_distr. cbn [rev app]. rewrite rev_involutive. apply Forall_app in H1. destruct H1 as [H1 H4]. inversion H4 as [|? ? (Q1 & Q2 & Q3) _]; subst.
    apply neat_arr. split; [reflexivity|]. apply Forall_app. split; [exact H1|]. constructor; [|constructor]. repeat split; cbn; [exact Q1|exact Q2|rewrite Q3, P3; reflexivity].
  - inversion H3 as [|? ? (Q1 & Q2 & Q3) H4]; subst. apply neat_arr. split; [reflexivity|]. apply Forall_app. split; [exact H1|]. constructor; [|exact H4].
    repeat split; cbn; [rewrite P1, Q1; reflexivity|exact Q2|exact Q3].
Qed.
Lemma neat_cut_mem w l1 m l2 : neat (JObj w (l1 ++ m :: l2)) -> neat (cut_mem w l1 m l2).
Proof.
  rewrite neat_obj, Forall_app. intros (-> & H1 & H2). inversion H2 as [|? ? (P1 & _ & _ & _ & P3) H3]; subst. unfold cut_mem. destruct l2 as [|m2 l2].
  - destruct l1 as [|m1 l1] using rev_ind; cbn [rev]; [rewrite neat_obj, P1, P3; auto|].
    rewrite rev_app_distr. cbn [rev app]. rewrite rev_involutive. apply Forall_app in H1. destruct H1 as [H1 H4]. inversion H4 as [|? ? (Q1 & Q2 & Q3 & Q4 & Q5) _]; subst.
    apply neat_obj. split; [reflexivity|]. apply Forall_app. split; [exact H1|]. constructor; [|constructor]. repeat split; cbn; try assumption. rewrite Q5, P3; reflexivity.
  - inversion H3 as [|? ? (Q1 & Q2 & Q3 & Q4 & Q5) H4]; subst. apply neat_obj. split; [reflexivity|]. apply Forall_app. split; [exact H1|]. constructor; [|exact H4].
    repeat split; cbn; try assumption. rewrite P1, Q1; reflexivity.
Qed.
Lemma neat_snoc w els v : neat (JArr w els) -> neat v -> neat (JArr w (els ++ [Elem [] v []])).
Proof. rewrite !neat_arr, Forall_app. intros [-> H] Hv. split; [reflexivity|]. split; [exact H|]. constructor; [|constructor]. repeat split; exact Hv. Qed.
Lemma neat_new w ms k v : neat (JObj w ms) -> neat v -> neat (JObj w (ms ++ [new_mem k v])).
Proof. rewrite !neat_obj, Forall_app. intros [-> H] Hv. split; [reflexivity|]. split; [exact H|]. constructor; [|constructor]. repeat split; exact Hv. Qed.
Lemma neat_ins w l1 v e l2 : neat (JArr w (l1 ++ e :: l2)) -> neat v -> neat (ins_elem w l1 v e l2).
Proof.
  unfold ins_elem. rewrite !neat_arr, !Forall_app. intros (-> & H1 & H2) Hv. inversion H2 as [|? ? (P1 & P2 & P3) H3]; subst. split; [reflexivity|]. split; [exact H1|].
  constructor; [repeat split; [exact P1|exact Hv]|]. constructor; [|exact H3]. repeat split; assumption.
Qed.
Lemma neat_mem w l1 m m' l2 : neat (JObj w (l1 ++ m :: l2)) -> (neat_m m -> neat_m m') -> neat (JObj w (l1 ++ m' :: l2)).
Proof.
  rewrite !neat_obj, !Forall_app. intros (-> & H1 & H2) Hm. inversion H2; subst. split; [reflexivity|]. split; [exact H1|]. constructor; auto.
Qed.
Lemma neat_rename m k : neat_m m -> neat_m (rename m k).
Proof. intros (P1 & P2 & P3 & P4 & P5). repeat split; assumption. Qed.
Lemma neat_with m v : neat v -> neat_m m -> neat_m (with_val m v).
Proof. intros Hv (P1 & P2 & P3 & P4 & P5). repeat split; assumption. Qed.

(** ** Below and above *)
Lemma neat_child v x c : neat v -> child v x = Some c -> neat c.
Proof.
  destruct v as [s|s|w els|w ms]; try discriminate; cbn [child]; intros H Hc.
  - apply neat_arr in H. destruct H as [_ H]. destruct (atoi x) as [z|]; [|discriminate]. unfold nth_z in Hc. destruct (_ && _); [|discriminate].
    destruct (nth_error els (Z.to_nat z)) as [e|] eqn:E; [|discriminate]. injection Hc as <-. apply nth_error_In in E. rewrite Forall_forall in H. apply (H e E).
  - apply neat_obj in H. destruct H as [_ H]. unfold find_mem in Hc. destruct (find _ ms) as [m|] eqn:E; [|discriminate]. injection Hc as <-.
    apply find_some in E. rewrite Forall_forall in H. apply (H m (proj1 E)).
Qed.
Lemma neat_set_child v x c : neat v -> neat c -> neat (set_child v x c).
Proof.
  destruct v as [s|s|w els|w ms]; try (intros; exact I); cbn [set_child]; intros H Hc.
  - destruct (atoi x) as [z|]; [|exact H]. apply neat_arr in H. destruct H as [-> H]. apply neat_arr. split; [reflexivity|].
    generalize (Z.to_nat z). induction H as [|e l He Hl IH]; intros [|n]; cbn [set_nth]; [constructor|constructor| |constructor; [exact He|apply IH]].
    constructor; [|exact Hl]. destruct He as (P1 & _ & P3). repeat split; assumption.
  - apply neat_obj in H. destruct H as [-> H]. apply neat_obj. split; [reflexivity|].
    induction H as [|m l Hm Hl IH]; cbn [set_mem]; [constructor|]. destruct (bytes_eqb (m_key m) x); (constructor; [|assumption]); [apply neat_with; assumption|exact Hm].
Qed.
Lemma neat_lookup p : forall v u, neat v -> lookup v p = Some u -> neat u.
Proof.
  induction p as [|x p IH]; intros v u H Hl; cbn [lookup] in Hl; [injection Hl as <-; exact H|].
  destruct (child v x) as [c|] eqn:E; [|discriminate]. exact (IH _ _ (neat_child _ _ _ H E) Hl).
Qed.
Lemma neat_modify p : forall v u v', neat v -> neat u -> modify v p (fun _ => Some u) = Some v' -> neat v'.
Proof.
  induction p as [|x p IH]; intros v u v' H Hu Hm; cbn [modify] in Hm; [injection Hm as <-; exact Hu|].
  destruct (child v x) as [c|] eqn:E; [|discriminate]. destruct (modify c p _) as [c'|] eqn:E2; [|discriminate]. injection Hm as <-.
  apply neat_set_child; [exact H|]. exact (IH _ _ _ (neat_child _ _ _ H E) Hu E2).
Qed.
