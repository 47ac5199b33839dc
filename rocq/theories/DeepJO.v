(** A JO that holds a document made of nested Go maps and slices (C82). *)
From Coq Require Import String Lia.
From Verif Require Import GoStd Errors Core Api Typed GoLang SpecTyped SpecMade SpecDeep Deep DeepTotal SpecDeepGo DeepGo SpecDeepJO AsWritten TypedGo.
From Verif Require JO JOProofs TypedGoProofs.

Local Open Scope N_scope.

Lemma jcmd_call pf c t : JO.jo_call pf t (jcmd pf c) = JO.assign (do_mcmd pf c t).
Proof. destruct c; try reflexivity. cbn [jcmd JO.jo_call do_mcmd]. apply JOProofs.jo_store. Qed.
Theorem jo_call_deep pf m c : good pf m -> filled m -> m_sure pf m c ->
  exists e, JO.jo_call pf (make pf m) (jcmd pf c) = JO.JRet (make pf (m_after c m)) e /\ (e = None <-> m_applies c m = true) /\ good pf (m_after c m) /\ filled (m_after c m).
Proof.
  intros H Hf Hs. pose proof (deep_total pf m c H Hf Hs) as T. rewrite jcmd_call. unfold m_after, m_applies. destruct (m_effect c m) as [m'|].
  - destruct T as (-> & G & F). exists None. split; [reflexivity|]. split; [tauto|]. split; assumption.
  - destruct T as (e & ->). exists (Some e). split; [reflexivity|]. split; [split; discriminate|]. split; assumption.
Qed.
Theorem jo_history_deep pf cs : forall m, good pf m -> filled m -> m_sures pf cs m ->
  exists es, JO.jo_run pf (make pf m) (map (jcmd pf) cs) = Some (make pf (m_final cs m), es) /\ told_by es = m_applied cs m /\ good pf (m_final cs m) /\ filled (m_final cs m).
Proof.
  induction cs as [|c cs IH]; intros m H Hf Hs; cbn [m_sures map JO.jo_run m_applied m_final fold_left] in *; [exists []; auto|].
  destruct Hs as (Hs & Hr). destruct (jo_call_deep pf m c H Hf Hs) as (e & E & He & G & F). destruct (IH _ G F Hr) as (es & E1 & E2 & E3). exists (e :: es).
  rewrite E. unfold m_final in *. rewrite E1. split; [reflexivity|]. split; [|exact E3]. cbn [told_by map]. unfold told_by in E2. rewrite E2. f_equal.
  destruct e; destruct (m_applies c m); try reflexivity; [destruct He as [_ He]; discriminate (He eq_refl)|destruct He as [He _]; discriminate (He eq_refl)].
Qed.
Lemma jcmd_octets pf c : mcmd_octets c -> jcall_octets (jcmd pf c).
Proof.
  intro H. destruct c; cbn [jcmd mcmd_octets jcall_octets] in *; try exact I; try (apply octets_make; exact H); try exact H;
    try (destruct H as [H1 H2]; split; [exact H1|]; try apply TypedGoProofs.octets_format; apply octets_make, H2).
Qed.
Theorem jo_written_deep pf cs m : good pf m -> filled m -> m_octets m -> Forall mcmd_octets cs -> m_sures pf cs m ->
  exists es, eventually (fun fuel => after (make_go pf m) (calls_j fuel pf (map (jcmd pf) cs)) = Ret (make pf (m_final cs m), es)) /\ told_by es = m_applied cs m.
Proof.
  intros H Hf Ho Hc Hs. destruct (jo_history_deep pf cs m H Hf Hs) as (es & E & Et & _). exists es. split; [|exact Et].
  assert (Hj : Forall jcall_octets (map (jcmd pf) cs)) by (apply Forall_map; eapply Forall_impl; [|exact Hc]; intro c; apply jcmd_octets).
  destruct (TypedGoProofs.calls_j_spec pf _ _ (octets_make pf m Ho) Hj) as (n & Hn). exists n. intros fuel Hl. rewrite make_go_spec. cbn [after]. rewrite (Hn fuel Hl), E. reflexivity.
Qed.
