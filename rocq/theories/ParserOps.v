(** The update methods of the Parser against the functions of the same name. *)
From Coq Require Import String.
From Verif Require Import GoStd Json Spec SpecProofs Domains Core Skip Focus CoreProofs Errors Api ApiProofs Updates Ops History Iter SpecParser Parser ParserProofs ParserGet ParserUpd.
From Verif Require Export SpecParserOps.

Local Open Scope N_scope.

Lemma tl_ancestors q x : tl (ancestors (q ++ [x])) = ancestors q.
Proof. rewrite ancestors_snoc. reflexivity. Qed.
Lemma not_nil q (x : bytes) : q ++ [x] <> []. Proof. destruct q; discriminate. Qed.
Lemma modify_app p : forall v q f, modify v (p ++ q) f = modify v p (fun u => modify u q f).
Proof. induction p as [|x p IH]; intros v q f; [reflexivity|]. cbn [app modify]. destruct (child v x); [rewrite IH; reflexivity|reflexivity]. Qed.
Lemma modify_ext_at p : forall v f g u, lookup v p = Some u -> f u = g u -> modify v p f = modify v p g.
Proof.
  induction p as [|x p IH]; intros v f g u Hl H; cbn [lookup modify] in *; [congruence|].
  destruct (child v x) as [c|]; [|discriminate]. rewrite (IH c f g u Hl H). reflexivity.
Qed.
Lemma opens_leaf v : leaf v = true -> wf v = true -> exists c r, render v = c :: r /\ is_open c = false.
Proof.
  destruct v as [s|s|w els|w ms]; try discriminate; intros _ Hw; cbn [render wf] in *.
  - unfold scalar_ok in Hw. destruct s as [|c s]; [discriminate|]. cbn [forallb] in Hw. nbool. exists c, s. split; [reflexivity|].
    match goal with H : is_token_char c = true |- _ => revert H end. unfold is_token_char, is_open.
    destruct (N.eqb_spec c 91) as [->|]; [discriminate|]. destruct (N.eqb_spec c 123) as [->|]; [discriminate|reflexivity].
  - eexists _, _. split; reflexivity.
Qed.
Lemma not_nested v : leaf v = true -> wf v = true -> (2 <=? length (render v))%nat && opens (render v) = false.
Proof.
  intros Hl Hw. destruct (opens_leaf v Hl Hw) as (c & r & -> & Hc). cbn [opens]. rewrite Hc, andb_false_r. reflexivity.
Qed.

Section Calls.
  Variable C : jv -> list node -> Prop.
  Hypothesis HC : closed C.

  (** Changing the container at [q] *)
  Lemma at_container p d q u u' g pre post :
    p_holds C p d -> focus (d_val d) q pre u post -> straight (d_val d) q = true -> wf u' = true -> container u' = true ->
    (forall m, n_label (g m) = n_label m) ->
    (forall m, n_walk (p_core p) q = Ok m -> kids C u (n_down m) -> kids C u' (n_down (g m))) ->
    exists v', let d' := Doc (d_pre d) v' (d_post d) in
      modify (d_val d) q (fun _ => Some u') = Some v' /\
      text d' = d_pre d ++ pre ++ render u' ++ post ++ d_post d /\ wf_doc d' = true /\
      (forall f c', f (content u) = Some (content u') -> d_modify (content (d_val d)) q f = Some c' -> matches d d' c') /\
      (q = [] -> p_holds C (Par (g (p_core p)) (text d')) d') /\
      exists p2, refresh (ancestors q) (Par (upd_node q g (p_core p)) (text d')) = PRet p2 None /\
        refresh_quiet (ancestors q) (Par (upd_node q g (p_core p)) (text d')) = PRet p2 None /\ p_holds C p2 d'.
  Proof.
    intros (Hj & Hw & Hk) Hf Hs Hw' Hc' Hg HK. pose proof (focus_lookup _ _ _ _ _ Hf) as Hl.
    destruct (upd_stale C HC q (d_val d) (p_core p) u (fun _ => Some u') u' g Hk Hl Hs eq_refl Hg HK) as (v' & Hm & Hr & Hst).
    destruct (focus_modify _ _ _ _ _ (fun _ => Some u') u' Hf eq_refl) as (v2 & Hm2 & Hf2). rewrite Hm in Hm2. injection Hm2 as <-.
    assert (Hwv : wf v' = true) by (eapply modify_wf with (f := fun _ => Some u') (v' := u'); [exact Hl|reflexivity|apply wf_doc_val; exact Hw|exact Hw'|exact Hm]).
    exists v'. intro d'. assert (Hwd : wf_doc d' = true).
    { unfold wf_doc in *. cbn [d' d_pre d_val d_post]. nbool. rewrite Hwv. repeat match goal with H : _ = true |- _ => rewrite H end. reflexivity. }
    split; [exact Hm|]. split; [rewrite (text_focus d' q pre u' post Hf2); cbn [d' d_pre d_post]; same_text|].
    split; [exact Hwd|]. split.
    { intros f c' Hfc Hd. rewrite (modify_content _ _ (fun _ => Some u')) in Hd.
      - rewrite Hm in Hd. injection Hd as <-. split; [exact Hwd|]. split; [reflexivity|]. split; reflexivity.
      - intros v Hv. rewrite Hl in Hv. injection Hv as <-. exact Hfc. }
    split.
    - intros ->. split; [reflexivity|]. split; [exact Hwd|]. cbn [p_core]. cbn in Hst. exact Hst.
    - destruct (refresh_ok C HC d' q Hwd u' (Par (upd_node q g (p_core p)) (text d')) Hr Hc' eq_refl Hst) as (p2 & R1 & R2 & R3). eauto.
  Qed.

  (** What is claimed of every call *)
  Definition follows (p : parser) (d : doc) (o : op) (c' : jd) : Prop :=
    exists d' p', call o (text d) = Done (text d') /\ p_call o p = PRet p' None /\ p_holds C p' d' /\ matches d d' c'.

  Lemma split_path (q : list bytes) : q <> [] -> exists q0 x, q = q0 ++ [x].
  Proof. intro H. destruct (exists_last H) as (q0 & x & ->). eauto. Qed.
  Lemma straight_snoc v q x u : lookup v q = Some u -> straight v (q ++ [x]) = true ->
    straight v q = true /\ lonely u = false /\ exact_step u x = true.
  Proof.
    intros Hl Hs. rewrite (straight_app q v [x] u Hl) in Hs. apply andb_true_iff in Hs. destruct Hs as [Hs Hx]. cbn [straight] in Hx. nbool. auto.
  Qed.
  Lemma lookup_snoc v q x c : lookup v (q ++ [x]) = Some c -> exists u, lookup v q = Some u /\ child u x = Some c.
  Proof.
    rewrite lookup_app. destruct (lookup v q) as [u|]; [|discriminate]. cbn [lookup]. intro H. exists u. split; [reflexivity|].
    destruct (child u x); [exact H|discriminate].
  Qed.

  Lemma call_set p d q v c' : p_holds C p d -> legal d (OSet q v) -> p_legal d (OSet q v) ->
    meaning (OSet q v) (content (d_val d)) = Some c' -> follows p d (OSet q v) c'.
  Proof.
    intros Hp (Hq & Hwv) (Hlv & Hs & old & Hlo & Hh) Hm. destruct (split_path q Hq) as (q0 & x & ->).
    destruct (lookup_snoc _ _ _ _ Hlo) as (u & Hl & Hc). destruct (straight_snoc _ _ _ _ Hl Hs) as (Hs0 & Hlone & He).
    destruct (lookup_focus _ _ _ Hl) as (pre & post & Hf). pose proof Hp as (Hj & Hw & Hk).
    pose proof (focus_wf _ _ _ _ _ Hf (wf_doc_val _ Hw)) as Hwu.
    destruct (at_container p d q0 u (set_child u x v) (upd_node [x] (with_value (render v))) pre post Hp Hf Hs0)
      as (v' & Hmod & Ht & Hwd & Hcont & _ & p2 & R1 & _ & R3).
    - eapply modify_wf with (p := [x]) (f := fun _ => Some v) (v' := v); [cbn [lookup]; rewrite Hc; reflexivity|reflexivity|exact Hwu|exact Hwv|].
      cbn [modify]. rewrite Hc. reflexivity.
    - destruct u; [discriminate|discriminate| |reflexivity]. cbn [set_child]. destruct (atoi x); reflexivity.
    - intro m. apply upd_node_label, with_value_label.
    - intros m _ Hkm. rewrite upd_node_down. cbn [upd_node]. eapply kids_set; eassumption.
    - set (d' := Doc (d_pre d) v' (d_post d)) in *. exists d', p2.
      assert (Hput : put (d_val d) (q0 ++ [x]) v = Some v').
      { unfold put. rewrite modify_app, <- Hmod. apply modify_ext_at with (u := u); [exact Hl|]. cbn [modify]. rewrite Hc. reflexivity. }
      assert (Hset : Set_ (text d) (render v) (q0 ++ [x]) = Done (text d')) by (apply set_put; [exact Hw|apply not_nil|exact Hput]).
      split; [exact Hset|]. split; [|split; [exact R3|]].
      + cbn [p_call]. unfold P_Set. destruct (q0 ++ [x]) as [|y r] eqn:Eq; [exfalso; revert Eq; apply not_nil|]. rewrite <- Eq in *. clear Eq y r.
        destruct (walk_found C (q0 ++ [x]) _ _ old Hk Hlo Hs) as (m & Hmw & _). rewrite Hmw. cbn [p_bind]. rewrite not_nested by assumption.
        rewrite Hj, Hset. cbn [take_text p_core]. rewrite tl_ancestors, upd_node_app. exact R1.
      + cbn [meaning] in Hm. rewrite (modify_content _ _ (fun _ => Some v)) in Hm by (intros; reflexivity). unfold put in Hput. rewrite Hput in Hm.
        injection Hm as <-. split; [exact Hwd|]. split; [reflexivity|]. split; reflexivity.
  Qed.

  Lemma drop_down x n : n_down (drop_label x n) = filter (fun d => negb (bytes_eqb (n_label d) x)) (n_down n).
  Proof. destruct n. reflexivity. Qed.
  Lemma walk_label n q x m : n_walk n (q ++ [x]) = Ok m -> n_label m = x.
  Proof.
    revert n. induction q as [|y q IH]; intros n H; cbn [app n_walk] in H.
    - destruct (find_node x (n_down n)) eqn:E; [|discriminate]. injection H as <-. eapply find_node_label. exact E.
    - destruct (find_node y (n_down n)); [|discriminate]. eapply IH. exact H.
  Qed.

  Lemma call_delete p d q x c' : p_holds C p d -> p_legal d (ODelete q x) ->
    meaning (ODelete q x) (content (d_val d)) = Some c' -> follows p d (ODelete q x) c'.
  Proof.
    intros Hp (Hs & Hcase) Hm. pose proof Hp as (Hj & Hw & Hk).
    assert (HH : exists u u' pre post old, focus (d_val d) q pre u post /\ wf u' = true /\ container u' = true /\ child u x = Some old /\
       d_remove x (content u) = Some (content u') /\
       Delete (text d) (q ++ [x]) = Done (d_pre d ++ pre ++ render u' ++ post ++ d_post d) /\
       (forall ns, kids C u ns -> kids C u' (filter (fun d => negb (bytes_eqb (n_label d) x)) ns))).
    { destruct Hcase as [(w & l1 & m & l2 & Hl & <- & Hn1 & Hn2)|(w & l1 & e & Hl & Hx)];
        destruct (lookup_focus _ _ _ Hl) as (pre & post & Hf); pose proof (focus_wf _ _ _ _ _ Hf (wf_doc_val _ Hw)) as Hwu;
        destruct (straight_snoc _ _ _ _ Hl Hs) as (Hs0 & Hlone & He).
      - exists (JObj w (l1 ++ m :: l2)), (cut_mem w l1 m l2), pre, post, (m_val m). split; [exact Hf|].
        split; [apply cut_mem_wf; exact Hwu|]. split; [destruct (cut_mem_pairs w l1 m l2) as (w' & ms & -> & _); reflexivity|].
        split; [cbn [child]; rewrite find_mem_app by auto; reflexivity|]. split; [apply cut_mem_content; exact Hn1|].
        split; [apply delete_obj; assumption|]. intros ns Hns. apply kids_delete; assumption.
      - exists (JArr w (l1 ++ [e])), (cut_elem w l1 e []), pre, post, (e_val e). split; [exact Hf|].
        split; [apply cut_elem_wf; exact Hwu|]. split; [destruct (cut_last w l1 e) as (w' & ms & -> & _); reflexivity|].
        split; [cbn [child]; rewrite Hx, nth_z_app; reflexivity|]. split; [apply cut_elem_content; exact Hx|].
        split; [apply delete_arr; assumption|]. intros ns Hns. cbn [exact_step] in He. rewrite Hx in He.
        destruct (bytes_eqb_spec (itoa (Z.of_nat (length l1))) x) as [<-|]; [|discriminate]. apply kids_pop; assumption. }
    destruct HH as (u & u' & pre & post & old & Hf & Hw' & Hc' & Hch & Hrem & Hdel & HK). pose proof (focus_lookup _ _ _ _ _ Hf) as Hl.
    destruct (straight_snoc _ _ _ _ Hl Hs) as (Hs0 & Hlone & He).
    destruct (at_container p d q u u' (drop_label x) pre post Hp Hf Hs0 Hw' Hc')
      as (v' & Hmod & Ht & Hwd & Hcont & _ & p2 & R1 & _ & R3).
    - intro m. apply with_down_label.
    - intros m _ Hkm. rewrite drop_down. apply HK. exact Hkm.
    - set (d' := Doc (d_pre d) v' (d_post d)) in *. exists d', p2. rewrite <- Ht in Hdel. split; [exact Hdel|]. split; [|split; [exact R3|]].
      + cbn [p_call]. unfold P_Delete. destruct (q ++ [x]) as [|y r] eqn:Eq; [exfalso; revert Eq; apply not_nil|]. rewrite <- Eq in *. clear Eq y r.
        destruct (walk_found C (q ++ [x]) _ _ old Hk) as (m & Hmw & _); [rewrite lookup_app, Hl; cbn [lookup]; rewrite Hch; reflexivity|exact Hs|].
        rewrite Hmw. cbn [p_bind]. rewrite (walk_label _ _ _ _ Hmw), removelast_snoc, Hj, Hdel. cbn [take_or_fail p_core]. rewrite tl_ancestors. exact R1.
      + apply (Hcont (d_remove x)); assumption.
  Qed.

  Lemma call_setkey p d q x k c' : p_holds C p d -> legal d (OSetKey q x k) -> p_legal d (OSetKey q x k) ->
    meaning (OSetKey q x k) (content (d_val d)) = Some c' -> follows p d (OSetKey q x k) c'.
  Proof.
    intros Hp (Hok & Hk0 & Habs) (Hs & w & l1 & m & l2 & Hl & <- & Hn1 & Hn2) Hm. pose proof Hp as (Hj & Hw & Hk).
    destruct (lookup_focus _ _ _ Hl) as (pre & post & Hf). pose proof (focus_wf _ _ _ _ _ Hf (wf_doc_val _ Hw)) as Hwu.
    destruct (straight_snoc _ _ _ _ Hl Hs) as (Hs0 & Hlone & He).
    assert (Hno : nokey k (l1 ++ m :: l2)).
    { destruct Habs as (w0 & ms & Hl0 & Hno & _). apply find_mem_none in Hno. congruence. }
    assert (Hsk : SetKey (text d) k (q ++ [m_key m]) = Done (d_pre d ++ pre ++ render (JObj w (l1 ++ rename m k :: l2)) ++ post ++ d_post d)).
    { apply setkey_obj; try assumption. apply core_seen_absent with (rest := []); assumption. }
    destruct (at_container p d q _ (JObj w (l1 ++ rename m k :: l2)) (fun n => with_down (upd_first (m_key m) (with_label k) (n_down n)) n) pre post Hp Hf Hs0)
      as (v' & Hmod & Ht & Hwd & Hcont & _ & p2 & _ & R2 & R3).
    - rewrite wf_obj, forallb_app in Hwu. cbn [forallb] in Hwu. nbool.
      assert (Hr : mem_ok (rename m k) = true).
      { match goal with H : mem_ok m = true |- _ => unfold mem_ok in H end. unfold mem_ok, rename. cbn [m_pre m_key m_mid m_mid2 m_val m_post]. nbool.
        repeat match goal with H : _ = true |- _ => rewrite H end. reflexivity. }
      rewrite wf_obj, forallb_app. cbn [forallb]. rewrite Hr. repeat match goal with H : _ = true |- _ => rewrite H end. reflexivity.
    - reflexivity.
    - intro n. apply with_down_label.
    - intros n _ Hkn. rewrite with_down_down. apply kids_setkey; assumption.
    - set (d' := Doc (d_pre d) v' (d_post d)) in *. exists d', p2. rewrite <- Ht in Hsk. split; [exact Hsk|]. split; [|split; [exact R3|]].
      + cbn [p_call]. unfold P_SetKey. destruct (q ++ [m_key m]) as [|y r] eqn:Eq; [exfalso; revert Eq; apply not_nil|]. rewrite <- Eq in *. clear Eq y r.
        destruct k as [|k0 k]; [congruence|]. set (k' := k0 :: k) in *.
        destruct (walk_found C (q ++ [m_key m]) _ _ (m_val m) Hk) as (n & Hnw & _);
          [rewrite lookup_app, Hl; cbn [lookup child]; rewrite find_mem_app by auto; reflexivity|exact Hs|].
        rewrite Hnw. cbn [p_bind]. rewrite removelast_snoc. destruct (walk_found C q _ _ _ Hk Hl Hs0) as (n2 & Hn2w & _ & Hkn2). rewrite Hn2w. cbn [p_pure].
        unfold has_label. destruct (find_node k' (n_down n2)) as [n3|] eqn:E3.
        { destruct (proj1 Hkn2 _ _ E3) as (c & Hc & _). rewrite lstep_obj in Hc. apply nokey_assoc in Hno. congruence. }
        rewrite Hj, Hsk. cbn [take_text p_core]. rewrite tl_ancestors.
        replace (upd_node (q ++ [m_key m]) (with_label k') (p_core p)) with (upd_node q (fun n => with_down (upd_first (m_key m) (with_label k') (n_down n)) n) (p_core p)); [exact R2|].
        rewrite upd_node_app. clear. generalize (p_core p) as n. induction q as [|y q IH]; intro n; [destruct n; reflexivity|].
        cbn [upd_node]. destruct n. f_equal. apply upd_first_ext. exact IH.
      + apply (Hcont (d_rename (m_key m) k)); [|exact Hm]. cbn [content d_rename]. fold mpair. rewrite assoc_mpair, find_mem_app by auto. cbn [option_map].
        rewrite assoc_mpair. pose proof (proj2 (find_mem_none k _) Hno) as E. rewrite E. cbn [option_map]. rewrite !map_app. cbn [map].
        change (mpair m) with (m_key m, content (m_val m)). rewrite assoc_rename_app by (apply nokey_pairs; exact Hn1). reflexivity.
  Qed.

  Lemma hd_last o mid c : hd 0 (o :: mid ++ [c]) = o /\ last (o :: mid ++ [c]) 0 = c /\ (2 <=? length (o :: mid ++ [c]))%nat = true.
  Proof. split; [reflexivity|]. split; [apply (last_last (o :: mid))|]. cbn [length]. rewrite app_length. cbn [length]. apply Nat.leb_le. lia. Qed.
  Lemma get_container p d q u : p_holds C p d -> (q = [] -> d_pre d = [] /\ d_post d = []) -> lookup (d_val d) q = Some u ->
    straight (d_val d) q = true -> container u = true -> P_Get p q = Ok (render u).
  Proof.
    intros Hp Hq Hl Hs Hc. destruct q as [|x q].
    - cbn [P_Get]. destruct (Hq eq_refl) as [E1 E2]. cbn in Hl. injection Hl as <-. rewrite (proj1 Hp). unfold text. rewrite E1, E2, app_nil_r. reflexivity.
    - rewrite (p_get_present C p d (x :: q) u) by (try assumption; discriminate). f_equal. apply bare_container. exact Hc.
  Qed.
  Lemma put_end p A c t k : p_json p = A ++ [c] -> put_before_end p t k = k (Par (p_core p) (A ++ t ++ [c])).
  Proof.
    intro Hj. unfold put_before_end. rewrite (replace_app_eq (p_json p) A [] [c] t); [reflexivity|exact Hj| |].
    - rewrite Hj, app_length. cbn [length]. lia.
    - rewrite Hj, !app_length. cbn [length]. lia.
  Qed.
  Lemma render_arr_snoc w els v : els <> [] ->
    render (JArr w (els ++ [Elem [] v []])) = (91 :: w ++ join (map elem_text els)) ++ 44 :: render v ++ [93].
  Proof.
    intro H. rewrite render_arr, map_app. cbn [map]. rewrite join_snoc by (destruct els; [congruence|discriminate]).
    unfold elem_text at 2. cbn [e_pre e_val e_post app]. rewrite app_nil_r. same_text.
  Qed.
  Lemma render_obj_snoc w ms k v : ms <> [] ->
    render (JObj w (ms ++ [new_mem k v])) = (123 :: w ++ join (map mem_text ms)) ++ 44 :: 34 :: k ++ 34 :: 58 :: render v ++ [125].
  Proof.
    intro H. rewrite render_obj, map_app. cbn [map]. rewrite join_snoc by (destruct ms; [congruence|discriminate]).
    unfold mem_text at 2. cbn [new_mem m_pre m_key m_mid m_mid2 m_val m_post app]. rewrite app_nil_r. same_text.
  Qed.
  Lemma append_down c n : n_down (append_node c n) = n_down n ++ [c].
  Proof. destruct n. reflexivity. Qed.
  Lemma append_label c n : n_label (append_node c n) = n_label n.
  Proof. destruct n. reflexivity. Qed.

  Lemma call_add p d q v c' : p_holds C p d -> legal d (OAdd q v) -> p_legal d (OAdd q v) ->
    meaning (OAdd q v) (content (d_val d)) = Some c' -> follows p d (OAdd q v) c'.
  Proof.
    intros Hp Hwv (Hlv & Hs & Hroot & w & els & Hl & Hlone) Hm. cbn [legal] in Hwv. pose proof Hp as (Hj & Hw & Hk).
    destruct (lookup_focus _ _ _ Hl) as (pre & post & Hf). pose proof (focus_wf _ _ _ _ _ Hf (wf_doc_val _ Hw)) as Hwu.
    pose proof (add_arr d q pre w els post v Hw Hf) as Hadd.
    destruct (walk_found C q _ _ _ Hk Hl Hs) as (m & Hmw & _ & Hkm).
    set (new := Node (itoa (Z.of_nat (length (n_down m)))) (render v) []).
    destruct (at_container p d q _ (JArr w (els ++ [Elem [] v []])) (append_node new) pre post Hp Hf Hs)
      as (v' & Hmod & Ht & Hwd & Hcont & Hr & p2 & R1 & _ & R3).
    - apply wf_arr_snoc; assumption.
    - reflexivity.
    - apply append_label.
    - intros m' Hm' Hkm'. rewrite append_down. rewrite Hmw in Hm'. injection Hm' as <-. apply kids_add; assumption.
    - set (d' := Doc (d_pre d) v' (d_post d)) in *. rewrite <- Ht in Hadd.
      assert (Hmat : matches d d' c').
      { apply (Hcont (d_append (content v))); [|exact Hm]. cbn [content d_append]. rewrite map_app. reflexivity. }
      assert (Hg : P_Get p q = Ok (render (JArr w els))).
      { apply (get_container p d q _ Hp); [intros ->; destruct (Hroot eq_refl) as (E1 & E2 & _); auto|exact Hl|exact Hs|reflexivity]. }
      destruct (hd_last 91 (w ++ join (map elem_text els)) 93) as (Hhd & Hlast & Hlen).
      assert (Er : render (JArr w els) = 91 :: (w ++ join (map elem_text els)) ++ [93]) by (rewrite render_arr, <- app_assoc; reflexivity).
      rewrite <- Er in Hhd, Hlast, Hlen. destruct (opens_leaf v Hlv Hwv) as (c0 & r0 & Ev & Hc0).
      destruct q as [|x q].
      + destruct (Hroot eq_refl) as (E1 & E2 & E3). cbn in Hl. injection Hl as Hl. rewrite Hl in E3. destruct els as [|e els]; [discriminate|].
        exists d', (Par (append_node new (p_core p)) (text d')). split; [exact Hadd|]. split; [|split; [apply Hr; reflexivity|exact Hmat]].
        cbn [p_call]. unfold P_Add. rewrite Hg. rewrite Ev in *. cbn [p_bind]. rewrite Hlen, Hhd, Hlast. cbn [N.eqb Pos.eqb andb opens].
        rewrite Hc0, andb_false_r. rewrite (put_end _ (91 :: w ++ join (map elem_text (e :: els))) 93).
        2:{ cbn [p_json]. rewrite Hj. unfold text. rewrite E1, E2, Hl, app_nil_r, Er. reflexivity. }
        cbn in Hmw. injection Hmw as <-. unfold new. cbn [p_core]. rewrite Ev. do 2 f_equal. rewrite Ht, E1, E2.
        inversion Hf; subst. rewrite render_arr_snoc by discriminate. cbn [app]. rewrite Ev. same_text.
      + exists d', p2. split; [exact Hadd|]. split; [|split; [exact R3|exact Hmat]].
        cbn [p_call]. unfold P_Add. rewrite Hg, Hmw. rewrite Ev in *. cbn [p_bind]. rewrite Hlen, Hhd, Hlast. cbn [N.eqb Pos.eqb andb opens].
        rewrite Hc0, andb_false_r. cbn [call] in Hadd. rewrite Hj, Hadd. cbn [take_or_fail p_core]. unfold new in R1. rewrite Ev in R1. exact R1.
  Qed.

  Lemma call_addkv p d q k v c' : p_holds C p d -> legal d (OAddKV q k v) -> p_legal d (OAddKV q k v) ->
    meaning (OAddKV q k v) (content (d_val d)) = Some c' -> follows p d (OAddKV q k v) c'.
  Proof.
    intros Hp (Hwv & Hok & Habs) (Hlv & Hs & Hk0 & Hroot & Hsib) Hm. pose proof Hp as (Hj & Hw & Hk).
    destruct (modify_focus _ _ _ _ Hm) as (pre & u & post & Hf & Hg0). pose proof (focus_lookup _ _ _ _ _ Hf) as Hl.
    pose proof (focus_wf _ _ _ _ _ Hf (wf_doc_val _ Hw)) as Hwu.
    destruct u as [s|s|w els|w ms]; [contradiction Hg0; reflexivity|contradiction Hg0; reflexivity|contradiction Hg0; reflexivity|].
    assert (Hno : nokey k ms).
    { cbn [content d_add] in Hg0. fold mpair in Hg0. rewrite assoc_mpair in Hg0. apply find_mem_none. destruct (find_mem k ms); [contradiction Hg0; reflexivity|reflexivity]. }
    assert (Hadd : AddKeyValue (text d) k (Some (render v)) q = Done (d_pre d ++ pre ++ render (JObj w (ms ++ [new_mem k v])) ++ post ++ d_post d)).
    { apply (add_kv_obj d q pre w ms post k (Some v) Hw Hf). intro Hne. destruct Habs as [Ha|(w' & Hl')].
      - apply core_seen_absent with (rest := []); assumption.
      - congruence. }
    destruct (walk_found C q _ _ _ Hk Hl Hs) as (m & Hmw & _ & Hkm).
    set (new := Node k (render v) []).
    destruct (at_container p d q _ (JObj w (ms ++ [new_mem k v])) (append_node new) pre post Hp Hf Hs)
      as (v' & Hmod & Ht & Hwd & Hcont & Hr & p2 & R1 & _ & R3).
    - apply wf_obj_snoc; assumption.
    - reflexivity.
    - apply append_label.
    - intros m' Hm' Hkm'. rewrite append_down. apply kids_addkv; assumption.
    - set (d' := Doc (d_pre d) v' (d_post d)) in *. rewrite <- Ht in Hadd.
      assert (Hmat : matches d d' c').
      { apply (Hcont (d_add k (content v))); [|exact Hm]. rewrite content_snoc. cbn [content d_add]. fold mpair. rewrite assoc_mpair.
        pose proof (proj2 (find_mem_none k ms) Hno) as E. rewrite E. reflexivity. }
      assert (Hg : P_Get p q = Ok (render (JObj w ms))).
      { apply (get_container p d q _ Hp); [intros ->; destruct (Hroot eq_refl) as (E1 & E2 & _); auto|exact Hl|exact Hs|reflexivity]. }
      destruct (hd_last 123 (w ++ join (map mem_text ms)) 125) as (Hhd & Hlast & Hlen).
      assert (Er : render (JObj w ms) = 123 :: (w ++ join (map mem_text ms)) ++ [125]) by (rewrite render_obj, <- app_assoc; reflexivity).
      rewrite <- Er in Hhd, Hlast, Hlen. destruct (opens_leaf v Hlv Hwv) as (c0 & r0 & Ev & Hc0).
      destruct k as [|k0 k]; [congruence|]. set (k' := k0 :: k) in *.
      assert (Hat : at_ (render v) 0 = Ok c0) by (rewrite Ev; reflexivity).
      assert (Hlab : forall n, kids C (JObj w ms) (n_down n) -> has_label k' (n_down n) = false).
      { intros n Hkn. unfold has_label. destruct (find_node k' (n_down n)) as [n3|] eqn:E3; [|reflexivity].
        destruct (proj1 Hkn _ _ E3) as (c & Hc & _). rewrite lstep_obj in Hc. apply nokey_assoc in Hno. congruence. }
      destruct q as [|x q].
      + destruct (Hroot eq_refl) as (E1 & E2 & E3). cbn in Hl. injection Hl as Hl. rewrite Hl in E3. destruct ms as [|m0 ms]; [discriminate|].
        exists d', (Par (append_node new (p_core p)) (text d')). split; [exact Hadd|]. split; [|split; [apply Hr; reflexivity|exact Hmat]].
        cbn [p_call]. unfold P_AddKeyValue. unfold k' at 1. rewrite Hg. cbn [p_bind]. cbn in Hmw. injection Hmw as <-. rewrite Hlab by exact Hkm.
        rewrite Hlen, Hhd, Hlast. cbn [N.eqb Pos.eqb andb]. rewrite Hat. cbn [p_pure]. rewrite Hc0.
        match goal with |- (if ?t then ?x else ?y) = _ => replace (if t then x else y) with y by (destruct t; reflexivity) end.
        rewrite (put_end _ (123 :: w ++ join (map mem_text (m0 :: ms))) 125).
        2:{ cbn [p_json]. rewrite Hj. unfold text. rewrite E1, E2, Hl, app_nil_r, Er. reflexivity. }
        unfold new. cbn [p_core]. do 2 f_equal. rewrite Ht, E1, E2.
        inversion Hf; subst. rewrite render_obj_snoc by discriminate. unfold Parser.pair_text. cbn [app]. same_text.
      + exists d', p2. split; [exact Hadd|]. split; [|split; [exact R3|exact Hmat]].
        cbn [p_call]. unfold P_AddKeyValue. unfold k' at 1. rewrite Hg, Hmw. cbn [p_bind].
        destruct (split_path (x :: q) ltac:(discriminate)) as (q0 & y & Eq). rewrite Eq in *. rewrite removelast_snoc.
        destruct (lookup_snoc _ _ _ _ Hl) as (u0 & Hl0 & Hc0'). destruct (straight_snoc _ _ _ _ Hl0 Hs) as (Hs0 & _ & _).
        destruct (walk_found C q0 _ _ _ Hk Hl0 Hs0) as (m0 & Hm0 & _ & Hkm0). rewrite Hm0. cbn [p_pure].
        assert (Hlab0 : has_label k' (n_down m0) = false).
        { specialize (Hsib q0 y u0 eq_refl Hl0). unfold has_label. destruct (find_node k' (n_down m0)) as [n3|] eqn:E3; [|reflexivity]. exfalso.
          destruct (proj1 Hkm0 _ _ E3) as (c & Hc & _). destruct u0 as [s|s|w0 els|w0 ms0]; try discriminate; cbn [label_free] in Hsib.
          - apply lstep_arr in Hc. destruct Hc as (i & e & Hi & Hx & _). apply (Hsib i); [apply nth_error_Some; congruence|congruence].
          - rewrite lstep_obj in Hc. apply nokey_assoc in Hsib. congruence. }
        rewrite Hlab0, Hlen, Hhd, Hlast. cbn [N.eqb Pos.eqb andb]. rewrite Hat. cbn [p_pure]. rewrite Hc0.
        match goal with |- (if ?t then ?x else ?y) = _ => replace (if t then x else y) with y by (destruct t; reflexivity) end. cbn [call] in Hadd. rewrite Hj, Hadd. cbn [take_or_fail p_core]. exact R1.
  Qed.

  Theorem call_follows p d o c' : p_holds C p d -> legal d o -> p_legal d o -> meaning o (content (d_val d)) = Some c' -> follows p d o c'.
  Proof.
    intros Hp Hl Hpl Hm. destruct o; try contradiction Hpl.
    - apply call_set; assumption.
    - apply call_delete; assumption.
    - apply call_add; assumption.
    - apply call_addkv; assumption.
    - apply call_setkey; assumption.
  Qed.
End Calls.
