(** Calls a Parser refuses. *)
From Coq Require Import String.
From Verif Require Import GoStd Json Spec SpecProofs Domains Core Skip Focus CoreProofs Errors Api ApiProofs Updates Ops History Iter SpecParser Parser ParserProofs ParserGet ParserUpd ParserOps ParserInsert SpecRefuse.

Local Open Scope N_scope.

(** ** On every parser *)
Lemma null_path p : (forall new, refused p (P_Set p new []) ENullPath) /\ (forall k, refused p (P_SetKey p k []) ENullPath) /\ refused p (P_Delete p []) ENullPath.
Proof. repeat split. Qed.
Lemma null_key p q : (q <> [] -> refused p (P_SetKey p [] q) ENullKey) /\ (forall new, refused p (P_AddKeyValue p [] new q) ENullKey) /\
  refused p (P_Add p [] q) ENullKey /\ (forall z, refused p (P_Insert p z [] q) ENullKey).
Proof. split; [|repeat split]. intro Hq. destruct q; [congruence|reflexivity]. Qed.

Lemma refresh_quiet_ok ps : forall p p' e, refresh_quiet ps p = PRet p' (Some e) -> False.
Proof.
  induction ps as [|a ps IH]; intros p p' e H; cbn [refresh_quiet] in H; [discriminate|].
  destruct (Get (p_json p) a); try discriminate; eapply IH; exact H.
Qed.
Lemma set_key_atomic p k q p' e : P_SetKey p k q = PRet p' (Some e) -> p' = p.
Proof.
  unfold P_SetKey. intro H. destruct q as [|x q]; [congruence|]. destruct k as [|c k]; [congruence|].
  destruct (n_walk (p_core p) (x :: q)) as [n|e1|]; cbn [p_bind] in H; try congruence.
  destruct (n_walk (p_core p) (removelast (x :: q))) as [u|e1|]; cbn [p_pure] in H; try congruence.
  destruct (has_label (c :: k) (n_down u)); [congruence|].
  unfold take_text in H. destruct (SetKey (p_json p) (c :: k) (x :: q)); try discriminate; apply refresh_quiet_ok in H; contradiction.
Qed.

(** ** On parsers that hold a document *)
Section Holds.
  Variable C : jv -> list node -> Prop.

  Lemma text_fits d : fits (text d) -> fits (render (d_val d)).
  Proof. unfold fits, text. rewrite !app_length. lia. Qed.

  Lemma holds_missing p d : p_holds C p d -> refuses_missing p d.
  Proof.
    intros (Hj & Hw & Hk) q Hf Hn. apply text_fits in Hf.
    destruct (walk_total C q _ _ Hk) as [(m & Hm)|(q0 & x & r & -> & He & Hq & Hs)].
    - destruct (walk_sound C q _ _ _ Hk Hf Hm) as (c & Hc & _). congruence.
    - exists q0, x, r. split; [reflexivity|]. split; [exact (Hq Hf)|]. split; [exact Hs|].
      assert (Hg : P_Get p (q0 ++ x :: r) = Err (EKeyNotFound x)).
      { destruct q0 as [|y q0]; cbn [app] in *; rewrite P_Get_cons, He; reflexivity. }
      assert (E : exists y s, q0 ++ x :: r = y :: s) by (destruct q0; cbn [app]; eauto).
      destruct E as (y & s & E). rewrite E in *. unfold refused.
      split; [intros; unfold P_Set; rewrite He; reflexivity|].
      split; [intros k Hk0; unfold P_SetKey; destruct k; [congruence|]; rewrite He; reflexivity|].
      split; [unfold P_Delete; rewrite He; reflexivity|].
      split; [intros new Hv; unfold P_Add; destruct new; [congruence|]; rewrite Hg; reflexivity|].
      split; [intros k new Hk0; unfold P_AddKeyValue; destruct k; [congruence|]; rewrite Hg; reflexivity|].
      intros z new Hv; unfold P_Insert; destruct new; [congruence|]; rewrite Hg; reflexivity.
  Qed.

  Lemma key_lstep w ms k : In k (map m_key ms) -> exists c, lstep (JObj w ms) k = Some c.
  Proof.
    cbn [lstep]. unfold find_mem. induction ms as [|m ms IH]; cbn [map find]; [intros []|]. intro H.
    destruct (bytes_eqb_spec (m_key m) k) as [E|E]; [exists (m_val m); reflexivity|]. destruct H as [H|H]; [contradiction (E H)|exact (IH H)].
  Qed.
  Lemma held_label w ms ns k : kids C (JObj w ms) ns -> In k (map m_key ms) -> has_label k ns = true.
  Proof.
    intros (_ & H & _) Hi. destruct (key_lstep w ms k Hi) as (c & Hc). unfold has_label.
    destruct (find_node k ns) eqn:E; [reflexivity|]. pose proof (H _ _ Hc E). discriminate.
  Qed.
  Lemma free_label v ns k : kids C v ns -> fits (render v) -> child v k = None -> has_label k ns = false.
  Proof.
    intros (H & _) Hf Hn. unfold has_label. destruct (find_node k ns) as [n|] eqn:E; [|reflexivity].
    destruct (H _ _ E) as (c & Hc & _). destruct (lstep_child _ _ _ Hf Hc) as [Hc' _]. congruence.
  Qed.
  Lemma child_fits v x c : fits (render v) -> exact_step v x = true -> child v x = Some c -> fits (render c).
  Proof. intros Hf He Hc. apply (lstep_child v x c Hf). apply child_lstep; assumption. Qed.
  Lemma lookup_fits q : forall v c, fits (render v) -> straight v q = true -> lookup v q = Some c -> fits (render c).
  Proof.
    induction q as [|x q IH]; intros v c Hf Hs Hl; cbn [lookup straight] in *; [congruence|]. nbool.
    destruct (child v x) as [u|] eqn:E; [|discriminate]. eapply (IH u); [eapply child_fits; eassumption|assumption|assumption].
  Qed.
  Lemma straight_app q r : forall v, straight v (q ++ r) = true -> straight v q = true.
  Proof.
    induction q as [|x q IH]; intros v H; [reflexivity|]. cbn [app straight] in *. nbool. apply andb_true_iff. split; [apply andb_true_iff; split; [apply negb_true_iff|]; assumption|].
    destruct (child v x) as [u|]; [apply IH; assumption|reflexivity].
  Qed.

  Lemma holds_taken p d : p_holds C p d -> refuses_taken p d.
  Proof.
    intros (Hj & Hw & Hk). split.
    - intros q x k w ms Hl Hs Hne Hx Hi. unfold refused, P_SetKey. destruct (key_lstep w ms x Hx) as (c & Hc).
      assert (Hlx : lookup (d_val d) (q ++ [x]) = Some c) by (rewrite lookup_app, Hl; cbn [lookup]; change (child (JObj w ms) x) with (lstep (JObj w ms) x); rewrite Hc; reflexivity).
      destruct (walk_found C _ _ _ _ Hk Hlx Hs) as (m & Hm & _).
      destruct (walk_found C q _ _ _ Hk Hl (straight_app _ _ _ Hs)) as (u & Hu & _ & Hku).
      destruct (q ++ [x]) as [|y r] eqn:E; [destruct q; discriminate|]. destruct k as [|b0 k]; [congruence|].
      rewrite Hm. cbn [p_bind]. rewrite <- E, removelast_last, Hu. cbn [p_pure]. rewrite (held_label w ms _ _ Hku Hi). reflexivity.
    - intros k w ms new Hv Hne Hi. rewrite Hv in Hk. unfold refused, P_AddKeyValue. destruct k as [|b0 k]; [congruence|]. cbn [P_Get p_bind].
      rewrite (held_label w ms _ _ Hk Hi). reflexivity.
  Qed.

  (** The text the parser looks at does not have the brackets. *)
  Lemma text_head d : wf_doc d = true -> container (d_val d) = true ->
    (2 <= length (text d))%nat /\ (hd 0 (text d) = hd 0 (render (d_val d)) \/ is_ws (hd 0 (text d)) = true).
  Proof.
    unfold wf_doc, text. intros Hw Hc. nbool. split.
    - rewrite !app_length. destruct (d_val d) as [s|s|w els|w ms]; try discriminate; [rewrite render_arr|rewrite render_obj]; repeat (rewrite ?app_length; cbn [length]); lia.
    - destruct (render_cons (d_val d)) as (c & t & Er & _); [assumption|]. destruct (d_pre d) as [|c0 r]; [left; rewrite Er; reflexivity|].
      right. cbn [app hd]. unfold ws_ok in *. cbn [forallb] in *. nbool. assumption.
  Qed.
  Lemma scalar_head s c : scalar_ok s = true -> is_open c = true -> hd 0 s =? c = false.
  Proof.
    unfold scalar_ok. destruct s as [|a s]; [discriminate|]. cbn [forallb hd]. intros H Ho. nbool. apply N.eqb_neq. intros ->.
    unfold is_open in Ho. apply orb_true_iff in Ho. destruct Ho as [Ho|Ho]; apply N.eqb_eq in Ho; subst c; discriminate.
  Qed.
  Lemma got p d q v : p_holds C p d -> lookup (d_val d) q = Some v -> straight (d_val d) q = true ->
    P_Get p q = Ok (match q with [] => text d | _ => bare v end).
  Proof.
    intros Hp Hl Hs. destruct q as [|x q]; [cbn; f_equal; apply Hp|]. apply (p_get_present C p d (x :: q) v Hp); [discriminate|exact Hl|exact Hs].
  Qed.
  Definition seen (d : doc) (q : list bytes) (v : jv) : bytes := match q with [] => text d | _ => bare v end.
  Lemma seen_bad d q v o c : wf_doc d = true -> lookup (d_val d) q = Some v -> wf v = true -> (q = [] -> container v = true) -> is_open o = true ->
    (forall w els, v = JArr w els -> o <> 91) -> (forall w ms, v = JObj w ms -> o <> 123) ->
    (forall s, v = JString s -> reads_like o c s = false) ->
    (hd 0 (seen d q v) =? o) && (last (seen d q v) 0 =? c) = false /\
    (2 <=? length (seen d q v))%nat = (2 <=? length (bare v))%nat.
  Proof.
    intros Hw Hl Hv Hq Ho HA HO HS.
    assert (Hh : container v = true -> hd 0 (render v) =? o = false).
    { destruct v as [s|s|w els|w ms]; try discriminate; intros _; [rewrite render_arr|rewrite render_obj]; cbn [hd app]; apply N.eqb_neq; intro E;
        [apply (HA w els eq_refl); auto|apply (HO w ms eq_refl); auto]. }
    destruct q as [|x q]; cbn [seen].
    - cbn [lookup] in Hl. injection Hl as <-. specialize (Hq eq_refl). destruct (text_head d Hw Hq) as [H1 H2]. split.
      + apply andb_false_iff. left. destruct H2 as [->|H2]; [exact (Hh Hq)|]. apply N.eqb_neq. intros <-.
        unfold is_open in Ho. apply orb_true_iff in Ho. destruct Ho as [Ho|Ho]; apply N.eqb_eq in Ho; rewrite Ho in H2; discriminate.
      + rewrite (bare_container _ Hq). transitivity true; [apply Nat.leb_le; exact H1|symmetry; apply Nat.leb_le].
        destruct (d_val d) as [s|s|w els|w ms]; try discriminate; [rewrite render_arr|rewrite render_obj]; repeat (rewrite ?app_length; cbn [length]); lia.
    - split; [|reflexivity]. destruct v as [s|s|w els|w ms].
      + apply andb_false_iff. left. exact (scalar_head s o Hv Ho).
      + exact (HS s eq_refl).
      + apply andb_false_iff. left. exact (Hh eq_refl).
      + apply andb_false_iff. left. exact (Hh eq_refl).
  Qed.
  Lemma not_object_seen d q v : wf_doc d = true -> lookup (d_val d) q = Some v -> wf v = true -> (q = [] -> container v = true) -> not_object v = true ->
    (hd 0 (seen d q v) =? 123) && (last (seen d q v) 0 =? 125) = false /\ (2 <=? length (seen d q v))%nat = (2 <=? length (bare v))%nat.
  Proof.
    intros Hw Hl Hv Hq Hn. apply (seen_bad d q v 123 125 Hw Hl Hv Hq eq_refl); [discriminate| |].
    - intros w ms ->. discriminate.
    - intros s ->. apply negb_true_iff. exact Hn.
  Qed.
  Lemma not_array_seen d q v : wf_doc d = true -> lookup (d_val d) q = Some v -> wf v = true -> (q = [] -> container v = true) -> not_array v = true ->
    (hd 0 (seen d q v) =? 91) && (last (seen d q v) 0 =? 93) = false /\ (2 <=? length (seen d q v))%nat = (2 <=? length (bare v))%nat.
  Proof.
    intros Hw Hl Hv Hq Hn. apply (seen_bad d q v 91 93 Hw Hl Hv Hq eq_refl); [|discriminate|].
    - intros w els ->. discriminate.
    - intros s ->. apply negb_true_iff. exact Hn.
  Qed.

  Lemma holds_kind p d : p_holds C p d -> refuses_kind p d.
  Proof.
    intros Hp q v Hl Hs Hq. pose proof Hp as (Hj & Hw & Hk).
    assert (Hv : wf v = true) by (unfold wf_doc in Hw; nbool; destruct (lookup_focus _ _ _ Hl) as (pre & post & F); eapply focus_wf; eassumption).
    pose proof (got p d q v Hp Hl Hs) as Hg. change (match q with [] => text d | _ => bare v end) with (seen d q v) in Hg.
    destruct (walk_found C q _ _ _ Hk Hl Hs) as (m & Hm & _ & Hkm).
    split; [|split].
    - intros k new Hf Hn Hne Hu. destruct (not_object_seen d q v Hw Hl Hv Hq Hn) as [H1 H2].
      unfold refused, P_AddKeyValue, kind_error. destruct k as [|b0 k]; [congruence|]. rewrite Hg. cbn [p_bind]. apply text_fits in Hf.
      destruct q as [|x q].
      + rewrite (free_label (d_val d)) by (try assumption; apply Hu; reflexivity). rewrite H1, H2. destruct (2 <=? length (bare v))%nat; reflexivity.
      + rewrite Hm. cbn [p_bind]. destruct (@exists_last _ (x :: q)) as (q0 & y & E); [discriminate|]. rewrite E in *.
        rewrite removelast_last. pose proof (straight_app _ _ _ Hs) as Hs0. unfold unheld in Hu. rewrite removelast_last in Hu.
        rewrite lookup_app in Hl. destruct (lookup (d_val d) q0) as [u|] eqn:Hlu; [|discriminate].
        destruct (walk_found C q0 _ _ _ Hk Hlu Hs0) as (mu & Hmu & _ & Hku). rewrite Hmu. cbn [p_pure].
        rewrite (free_label u _ _ Hku (lookup_fits q0 _ _ Hf Hs0 Hlu) (Hu u eq_refl)). rewrite H1, H2.
        destruct (2 <=? length (bare v))%nat; reflexivity.
    - intros new Hn Hne. destruct (not_array_seen d q v Hw Hl Hv Hq Hn) as [H1 H2].
      unfold refused, P_Add, kind_error. destruct new as [|b0 new]; [congruence|]. rewrite Hg. cbn [p_bind].
      destruct q as [|x q]; [|rewrite Hm; cbn [p_bind]]; rewrite H1, H2; destruct (2 <=? length (bare v))%nat; reflexivity.
    - intros z new Hn Hne. destruct (not_array_seen d q v Hw Hl Hv Hq Hn) as [H1 H2].
      unfold refused, P_Insert, kind_error. destruct new as [|b0 new]; [congruence|]. rewrite Hg. cbn [p_bind].
      destruct q as [|x q]; [|rewrite Hm; cbn [p_bind]]; rewrite H1, H2; destruct (2 <=? length (bare v))%nat; reflexivity.
  Qed.

  (** AddKeyValue to what is no object, whatever there is beside it *)
  Lemma holds_no_object p d q v k new : p_holds C p d -> lookup (d_val d) q = Some v -> straight (d_val d) q = true -> (q = [] -> container v = true) -> not_object v = true -> k <> [] ->
    exists e, refused p (P_AddKeyValue p k new q) e.
  Proof.
    intros Hp Hl Hs Hq Hn Hne. pose proof Hp as (Hj & Hw & Hk).
    assert (Hv : wf v = true) by (unfold wf_doc in Hw; nbool; destruct (lookup_focus _ _ _ Hl) as (pre & post & F); eapply focus_wf; eassumption).
    pose proof (got p d q v Hp Hl Hs) as Hg. change (match q with [] => text d | _ => bare v end) with (seen d q v) in Hg.
    destruct (walk_found C q _ _ _ Hk Hl Hs) as (m & Hm & _ & Hkm). destruct (not_object_seen d q v Hw Hl Hv Hq Hn) as [H1 H2].
    unfold refused, P_AddKeyValue. destruct k as [|b0 k]; [congruence|]. rewrite Hg. cbn [p_bind].
    destruct q as [|x q].
    - rewrite H1. destruct (has_label _ _); [eauto|]. destruct (_ <=? _)%nat; eauto.
    - rewrite Hm. cbn [p_bind]. destruct (@exists_last _ (x :: q)) as (q0 & y & E); [discriminate|]. rewrite E in *.
      rewrite removelast_last. pose proof (straight_app _ _ _ Hs) as Hs0.
      rewrite lookup_app in Hl. destruct (lookup (d_val d) q0) as [u|] eqn:Hlu; [|discriminate].
      destruct (walk_found C q0 _ _ _ Hk Hlu Hs0) as (mu & Hmu & _ & Hku). rewrite Hmu. cbn [p_pure]. rewrite H1. destruct (has_label _ _); [eauto|]. destruct (_ <=? _)%nat; eauto.
  Qed.
End Holds.

Lemma pCore_value v : wf v = true -> container v = true -> exists ns, pCore (render v) = Ok ns.
Proof.
  intros Hw Hc. destruct (parse_agrees (Doc [] v [])) as (n & Hn & _); [unfold wf_doc; cbn; rewrite Hw; reflexivity|exact Hc|].
  unfold text in Hn. cbn [d_pre d_val d_post app] in Hn. rewrite app_nil_r in Hn. unfold Parse in Hn.
  destruct (pCore (render v)) as [ns|e|]; [eauto|discriminate|discriminate].
Qed.
Lemma nested_ok v (k : list node -> pres) k0 r : wf v = true -> (forall ns, k ns = r) -> k0 = r ->
  (if (2 <=? length (render v))%nat && opens (render v) then p_pure (pCore (render v)) k else k0) = r.
Proof.
  intros Hw Hk H0. destruct (container v) eqn:Hc.
  - destruct (pCore_value v Hw Hc) as (ns & E). rewrite E. cbn [p_pure]. destruct (_ && _); [apply Hk|exact H0].
  - destruct (opens_leaf v) as (c & t & E & Ho); [unfold leaf; rewrite Hc; reflexivity|exact Hw|].
    rewrite E. unfold opens. rewrite Ho, andb_false_r. exact H0.
Qed.
Lemma n_insert_far w els ns z : counted1 (JArr w els) ns -> (Z.of_nat (length els) <= z)%Z -> n_insert ns z = Err EIndexOutOfRange.
Proof.
  cbn [counted1]. intros H Hz. unfold n_insert. destruct ns as [|n ns]; [reflexivity|]. destruct H as [H|[H _]]; [discriminate|].
  replace (Z.of_nat (length (n :: ns)) - 1 <? z)%Z with true; [reflexivity|]. symmetry. apply Z.ltb_lt. lia.
Qed.
Lemma holds_index p d : p_holds counted1 p d -> refuses_index p d.
Proof.
  intros Hp q w els z new Hl Hs Hq Hn Hz. pose proof Hp as (Hj & Hw & Hk).
  pose proof (get_container counted1 p d q (JArr w els) Hp Hq Hl Hs eq_refl) as Hg.
  destruct (walk_found counted1 q _ _ _ Hk Hl Hs) as (m & Hm & _ & Hkm). pose proof (n_insert_far w els _ z (proj2 (proj2 Hkm)) Hz) as Hi.
  unfold refused, P_Insert. destruct (render_cons new Hn) as (c & t & Er & _).
  assert (Hh : (2 <=? length (render (JArr w els)))%nat = true /\ (hd 0 (render (JArr w els)) =? 91) && (last (render (JArr w els)) 0 =? 93) = true).
  { destruct (hd_last 91 (w ++ join (map elem_text els)) 93) as (E1 & E2 & E3). rewrite render_arr, app_assoc. split; [exact E3|]. rewrite E1, E2. reflexivity. }
  destruct Hh as [H1 H2]. rewrite Hg. cbn [p_bind]. rewrite H1, H2. remember (render new) as R eqn:HR. destruct R as [|c0 R]; [discriminate|]. rewrite HR.
  destruct q as [|x q].
  - injection Hm as <-. apply nested_ok; [exact Hn|intro ns|]; rewrite Hi; reflexivity.
  - rewrite Hm. cbn [p_bind]. apply nested_ok; [exact Hn|intro ns|]; rewrite Hi; reflexivity.
Qed.

Theorem holds_refuses p d : p_holds counted1 p d -> refuses p d.
Proof.
  intro H. split; [eapply holds_missing; exact H|]. split; [eapply holds_taken; exact H|]. split; [eapply holds_kind; exact H|]. apply holds_index. exact H.
Qed.

Theorem history_refuses d ops c' : wf_doc d = true -> container (d_val d) = true -> p_lawful true d ops c' ->
  exists p d' p', Parse (text d) = Ok p /\ p_run ops p = Some p' /\ run ops (text d) = Some (text d') /\
    wf_doc d' = true /\ content (d_val d') = c' /\ p_json p' = text d' /\ refuses p' d'.
Proof.
  intros Hw Hc Hl. destruct (parse_holds d Hw Hc) as (p & Hp & Hh). destruct (p_history _ _ _ _ Hl p Hh) as (d' & p' & H1 & H2 & H3 & H4).
  exists p, d', p'. split; [exact Hp|]. split; [exact H2|]. split; [exact H1|]. split; [apply H3|]. split; [exact H4|]. split; [apply H3|].
  apply holds_refuses. exact H3.
Qed.
