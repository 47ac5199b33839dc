(** The updating functions against the abstract operations of Spec.v. *)
From Coq Require Import String.
From Verif Require Import GoStd Json Core Skip Focus CoreProofs CoreNeg CoreSib Errors Api SpecProofs ApiProofs Parse Domains.

Local Open Scope N_scope.

Lemma focus_value t p pre v post pre' v' post' :
  focus t p pre v post -> focus t p pre' v' post' -> v = v'.
Proof. intros H1 H2. apply focus_lookup in H1, H2. congruence. Qed.

Lemma focus_elem t q0 i pre w l1 e l2 post : focus t q0 pre (JArr w (l1 ++ e :: l2)) post ->
  atoi i = Some (Z.of_nat (length l1)) ->
  focus t (q0 ++ [i]) (pre ++ arr_pre w l1 e) (e_val e) (arr_post e l2 ++ post).
Proof.
  intros Hf Hi. eapply focus_app; [exact Hf|].
  replace (arr_pre w l1 e) with (arr_pre w l1 e ++ []) by apply app_nil_r.
  change (arr_post e l2) with ([] ++ arr_post e l2). constructor; [exact Hi|constructor].
Qed.

Lemma focus_mem t q0 pre w l1 m l2 post : focus t q0 pre (JObj w (l1 ++ m :: l2)) post ->
  nokey (m_key m) l1 ->
  focus t (q0 ++ [m_key m]) (pre ++ obj_pre w l1 m) (m_val m) (obj_post m l2 ++ post).
Proof.
  intros Hf Hi. eapply focus_app; [exact Hf|].
  replace (obj_pre w l1 m) with (obj_pre w l1 m ++ []) by apply app_nil_r.
  change (obj_post m l2) with ([] ++ obj_post m l2). constructor; [exact Hi|constructor].
Qed.

(** What a search for an absent key finds. *)
Theorem core_stray_at d q x rest w ms js :
  wf_doc d = true -> lookup (d_val d) q = Some (JObj w ms) -> find_mem x ms = None ->
  stray_at (d_val d) q x = Nowhere \/ rest = [] ->
  wants d x js (stray_at (d_val d) q x) (core (text d) js (q ++ x :: rest)).
Proof.
  intros Hw Hl Hx Ho. apply find_mem_none in Hx. unfold stray_at in *. rewrite Hl in *.
  destruct (rev q) as [|y r] eqn:Eq.
  - assert (q = []) by (rewrite <- (rev_involutive q), Eq; reflexivity). subst q. cbn [lookup] in Hl. injection Hl as Hl.
    destruct (last_tame ms) eqn:Et; [|exact I]. cbn [wants app]. apply (core_absent_root d x rest w ms js Hw Hl Hx).
    intros l m ->. unfold last_tame in Et. rewrite rev_app_distr in Et. exact Et.
  - assert (Hq : q = rev r ++ [y]) by (rewrite <- (rev_involutive q), Eq; reflexivity). subst q. clear Eq. set (q := rev r) in *.
    destruct (lookup_focus _ _ _ Hl) as (pre & post & Hf).
    destruct (followers_split d q y pre _ post Hw Hf) as (l & t & c & tail & Ep & Ht & Hc & Hok & Ei). rewrite Ei in *.
    exact (core_stray d (q ++ [y]) x rest w ms pre post js l t c tail Hw Hf Hx Ep Ht Hc (Hok _) Ho).
Qed.

Theorem core_seen_absent d q x rest js :
  wf_doc d = true -> seen_absent d q x -> core (text d) js (q ++ x :: rest) = Err (EKeyNotFound x).
Proof.
  intros Hw (w & ms & Hl & Hx & [Ho|(Hne & Ho & Hp)]).
  - pose proof (core_stray_at d q x rest w ms js Hw Hl Hx (or_introl Ho)) as E. rewrite Ho in E. exact E.
  - destruct (lookup_focus _ _ _ Hl) as (pre & post & Hf). eapply core_absent_nowhere; try eassumption; apply find_mem_none; exact Hx.
Qed.

Lemma replaced d p pre v post v' g c' :
  wf_doc d = true -> focus (d_val d) p pre v post -> wf v' = true -> g (content v) = Some (content v') ->
  d_modify (content (d_val d)) p g = Some c' ->
  exists d', matches d d' c' /\ text d' = d_pre d ++ pre ++ render v' ++ post ++ d_post d /\
             focus (d_val d') p pre v' post.
Proof.
  intros Hw Hf Hv Hg Hm. destruct (modify_at _ _ _ _ _ v' g Hf (wf_doc_val _ Hw) Hv Hg) as (t' & Hf' & Hw' & Hm').
  exists (Doc (d_pre d) t' (d_post d)). repeat split; cbn [d_pre d_val d_post].
  - unfold wf_doc in *. cbn [d_pre d_val d_post]. nbool. rewrite Hw'.
    repeat match goal with H : _ = true |- _ => rewrite H end. reflexivity.
  - congruence.
  - unfold text. cbn [d_pre d_val d_post]. rewrite (focus_render _ _ _ _ _ Hf'). same_text.
  - exact Hf'.
Qed.

(** Whatever the abstract operation applies to, it is at a position of the tree. *)
Lemma modify_focus d p g c' : d_modify (content (d_val d)) p g = Some c' ->
  exists pre v post, focus (d_val d) p pre v post /\ g (content v) <> None.
Proof.
  intro H. destruct (d_modify_inv _ _ _ _ H) as (v & cv & Hl & Hg).
  destruct (lookup_focus _ _ _ Hl) as (pre & post & Hf). exists pre, v, post. split; [exact Hf|congruence].
Qed.

(** ** Set *)
Theorem set_ok d p new c' :
  wf_doc d = true -> wf new = true -> p <> [] ->
  d_modify (content (d_val d)) p (d_const (content new)) = Some c' ->
  exists d', Set_ (text d) (render new) p = Done (text d') /\ matches d d' c'.
Proof.
  intros Hw Hn Hp Hm. destruct (modify_focus _ _ _ _ Hm) as (pre & v & post & Hf & _).
  destruct (replaced d p pre v post new _ c' Hw Hf Hn eq_refl Hm) as (d' & Hd & Ht & _).
  exists d'. split; [|exact Hd]. rewrite Ht. apply (set_present d p pre v post); assumption.
Qed.

(** ** Delete *)
Theorem delete_ok d q x c' :
  wf_doc d = true -> d_modify (content (d_val d)) q (d_remove x) = Some c' ->
  exists d', Delete (text d) (q ++ [x]) = Done (text d') /\ matches d d' c'.
Proof.
  intros Hw Hm. destruct (modify_focus _ _ _ _ Hm) as (pre & v & post & Hf & Hg).
  pose proof (focus_wf _ _ _ _ _ Hf (wf_doc_val _ Hw)) as Hwv.
  destruct v as [s|s|w els|w ms]; [contradiction Hg; reflexivity|contradiction Hg; reflexivity| |].
  - cbn [content d_remove] in Hg. destruct (atoi x) as [z|] eqn:Hx; [|contradiction Hg; reflexivity].
    rewrite nth_z_map in Hg. destruct (nth_z els z) as [e|] eqn:Hz; [|contradiction Hg; reflexivity].
    destruct (nth_z_split _ _ _ Hz) as (l1 & l2 & -> & ->).
    destruct (replaced d q pre _ post (cut_elem w l1 e l2) _ c' Hw Hf (cut_elem_wf _ _ _ _ Hwv)
                (cut_elem_content w l1 e l2 x Hx) Hm) as (d' & Hd & Ht & _).
    exists d'. split; [|exact Hd]. rewrite Ht. apply delete_arr; assumption.
  - cbn [content d_remove] in Hg. fold mpair in Hg. rewrite assoc_mpair in Hg.
    destruct (find_mem x ms) as [m|] eqn:Hx; [|contradiction Hg; reflexivity].
    destruct (find_mem_split _ _ _ Hx) as (Hk & l1 & l2 & -> & Hnk). subst x.
    destruct (replaced d q pre _ post (cut_mem w l1 m l2) _ c' Hw Hf (cut_mem_wf _ _ _ _ Hwv)
                (cut_mem_content w l1 m l2 Hnk) Hm) as (d' & Hd & Ht & _).
    exists d'. split; [|exact Hd]. rewrite Ht. apply delete_obj; assumption.
Qed.

(** ** The span of a container *)
Lemma root_first_spec W o R i len exp : ws_ok W = true -> is_ws o = false -> (S (i + length W) < len)%nat ->
  root_first len o exp (W ++ o :: R) i = Ok (i + length W)%nat.
Proof.
  intros Hw Ho. apply ws_ok_Forall in Hw. revert i. induction Hw as [|c W Hc Hw IH]; intros i Hl; cbn [app root_first].
  - rewrite <- space_ws, Ho, N.eqb_refl. cbn [length] in Hl. replace (S i =? len)%nat with false.
    + cbn [length]. f_equal. lia.
    + symmetry. apply Nat.eqb_neq. lia.
  - rewrite <- space_ws, Hc. cbn [length] in Hl. rewrite IH by lia. cbn [length]. f_equal. lia.
Qed.

Lemma root_first_other len o exp W c R i : ws_ok W = true -> is_ws c = false -> c <> o ->
  root_first len o exp (W ++ c :: R) i = Err exp.
Proof.
  intros Hw Hc Ho. apply ws_ok_Forall in Hw. revert i. induction Hw as [|a W Ha Hw IH]; intros i; cbn [app root_first].
  - rewrite <- space_ws, Hc. apply N.eqb_neq in Ho. rewrite Ho. reflexivity.
  - rewrite <- space_ws, Ha. apply IH.
Qed.

Lemma root_last_spec c exp W R n : ws_ok W = true -> is_ws c = false -> (n > 0)%nat ->
  root_last c exp (rev W ++ c :: R) (length W + S n) = Ok (S n).
Proof.
  intros Hw Hc Hn. apply ws_ok_Forall in Hw. induction W as [|a W IH] using rev_ind; cbn [app rev length].
  - cbn [root_last Nat.add]. rewrite <- space_ws, Hc, N.eqb_refl.
    replace (n =? 0)%nat with false by (symmetry; apply Nat.eqb_neq; lia). reflexivity.
  - apply Forall_app in Hw. destruct Hw as [Hw Ha]. inversion Ha; subst.
    rewrite rev_app_distr, app_length. cbn [rev app length].
    replace (length W + 1 + S n)%nat with (S (length W + S n)) by lia.
    cbn [root_last]. rewrite <- space_ws. rewrite H1. apply IH. exact Hw.
Qed.

Lemma root_span_spec W1 o mid c W2 exp : ws_ok W1 = true -> ws_ok W2 = true -> is_ws o = false -> is_ws c = false ->
  root_span (W1 ++ (o :: mid ++ [c]) ++ W2) o c exp = Ok (length W1, length (W1 ++ o :: mid ++ [c])).
Proof.
  intros H1 H2 Ho Hc. unfold root_span. cbn [app].
  rewrite (root_first_spec W1 o ((mid ++ [c]) ++ W2) 0) by (try assumption; len).
  cbn [bind Nat.add].
  replace (rev (W1 ++ o :: (mid ++ [c]) ++ W2)) with (rev W2 ++ c :: rev (W1 ++ o :: mid)).
  2:{ replace (W1 ++ o :: (mid ++ [c]) ++ W2) with ((W1 ++ o :: mid) ++ [c] ++ W2) by same_text.
      rewrite !rev_app_distr. cbn [rev app]. rewrite <- !app_assoc. reflexivity. }
  replace (length (W1 ++ o :: (mid ++ [c]) ++ W2)) with (length W2 + S (length (W1 ++ o :: mid)))%nat by len.
  rewrite root_last_spec by (try assumption; len). cbn [bind]. f_equal. f_equal. len.
Qed.

Lemma target_span_spec d p pre v post o mid c exp :
  wf_doc d = true -> focus (d_val d) p pre v post -> render v = o :: mid ++ [c] -> container v = true ->
  is_ws o = false -> is_ws c = false ->
  target_span (text d) o c exp p = Ok (length (d_pre d ++ pre), length (d_pre d ++ pre ++ render v)).
Proof.
  intros Hw Hf Hr Hct Ho Hc. unfold target_span. destruct p as [|x p].
  - inversion Hf; subst. rewrite app_nil_r. cbn [app]. unfold text. rewrite Hr.
    unfold wf_doc in Hw. nbool. apply root_span_spec; assumption.
  - destruct (core_present d (x :: p) pre v post Hw ltac:(discriminate) Hf) as (ks & Hcore).
    rewrite (Hcore false). cbv iota. cbn [bind]. f_equal. f_equal.
    + destruct v; try discriminate; cbn [qoff]; lia.
    + destruct v; try discriminate; cbn [qoff bare]; len.
Qed.

Lemma braces_at_spec json P o mid c R s e : json = P ++ (o :: mid ++ [c]) ++ R -> s = length P ->
  e = length (P ++ o :: mid ++ [c]) -> braces_at json s e o c = Ok true.
Proof.
  intros -> -> ->. unfold braces_at. rewrite (at_app_eq _ P o (mid ++ [c] ++ R)); [|same_text|reflexivity].
  cbn [bind]. rewrite N.eqb_refl. replace (length (P ++ o :: mid ++ [c])) with (S (length (P ++ o :: mid))) by len.
  cbn [at_pred]. rewrite (at_app_eq _ (P ++ o :: mid) c R); [|same_text|reflexivity]. cbn [bind].
  rewrite N.eqb_refl. reflexivity.
Qed.

Lemma blank_between_spec json P o mid c R s e : json = P ++ (o :: mid ++ [c]) ++ R -> s = length P ->
  e = length (P ++ o :: mid ++ [c]) -> blank_between json s e = forallb is_ws mid.
Proof.
  intros -> -> ->. unfold blank_between.
  replace (skipn (S (length P)) (P ++ (o :: mid ++ [c]) ++ R)) with (mid ++ c :: R).
  2:{ replace (P ++ (o :: mid ++ [c]) ++ R) with ((P ++ [o]) ++ mid ++ c :: R) by same_text.
      rewrite <- (length_snoc P o), skipn_length_app. reflexivity. }
  replace (pred (length (P ++ o :: mid ++ [c])) - S (length P))%nat with (length mid) by len.
  rewrite firstn_app, Nat.sub_diag, firstn_all. cbn [firstn]. rewrite app_nil_r.
  clear. induction mid as [|a mid IH]; cbn [forallb]; [reflexivity|]. rewrite <- (space_ws a), IH. reflexivity.
Qed.

Lemma done_insert json A B new n : json = A ++ B -> n = length A -> done_replace json new n n = Done (A ++ new ++ B).
Proof.
  intros Hj ->. unfold done_replace. rewrite (replace_app_eq json A [] B new); [reflexivity|exact Hj|reflexivity|len].
Qed.

Lemma two_bytes (d : doc) p pre v post : focus (d_val d) p pre v post -> container v = true -> (length (text d) <? 2)%nat = false.
Proof.
  intros Hf Hc. rewrite (text_focus _ _ _ _ _ Hf). apply Nat.ltb_ge.
  destruct v; try discriminate; cbn [render]; rewrite !app_length; cbn [length]; rewrite !app_length; cbn [length]; lia.
Qed.

Lemma wf_nonblank v : wf v = true -> exists c r, render v = c :: r /\ is_ws c = false.
Proof.
  destruct v; intro H; cbn [render].
  - cbn [wf] in H. unfold scalar_ok in H. destruct s as [|c s]; [discriminate|]. exists c, s. split; [reflexivity|].
    cbn [forallb] in H. apply andb_true_iff in H. destruct H as [H _]. unfold is_token_char in H.
    rewrite negb_true_iff, !orb_false_iff in H. tauto.
  - exists 34, (s ++ [34]). split; reflexivity.
  - eexists _, _. split; [reflexivity|reflexivity].
  - eexists _, _. split; [reflexivity|reflexivity].
Qed.

Lemma join_snoc l x : l <> [] -> join (l ++ [x]) = join l ++ 44 :: x.
Proof.
  destruct l as [|a l]; [congruence|]. intros _. cbn [app]. rewrite !join_cons, jpost_app, jpost_cons.
  change (jpost []) with (@nil N). rewrite app_nil_r. same_text.
Qed.

Lemma not_blank A c B : is_ws c = false -> forallb is_ws (A ++ c :: B) = false.
Proof. intro H. rewrite forallb_app. cbn [forallb]. rewrite H, andb_false_r. reflexivity. Qed.

(** ** Add *)
Theorem add_arr d p pre w els post value :
  wf_doc d = true -> focus (d_val d) p pre (JArr w els) post ->
  Add_ (text d) (render value) p =
  Done (d_pre d ++ pre ++ render (JArr w (els ++ [Elem [] value []])) ++ post ++ d_post d).
Proof.
  intros Hw Hf. pose proof (focus_wf _ _ _ _ _ Hf (wf_doc_val _ Hw)) as Hwv.
  unfold Add_. rewrite (two_bytes _ _ _ _ _ Hf eq_refl).
  assert (Hr : render (JArr w els) = 91 :: (w ++ join (map elem_text els)) ++ [93]) by (rewrite render_arr; same_text).
  rewrite (target_span_spec d p pre _ post _ _ _ _ Hw Hf Hr eq_refl eq_refl eq_refl). cbn [ubind].
  pose proof (text_focus _ _ _ _ _ Hf) as Ht. rewrite Hr in Ht.
  rewrite (braces_at_spec (text d) _ _ _ _ _ _ _ Ht eq_refl) by (rewrite Hr; f_equal; same_text). cbn [pbind].
  rewrite (blank_between_spec (text d) _ _ _ _ _ _ _ Ht eq_refl) by (rewrite Hr; f_equal; same_text).
  rewrite wf_arr in Hwv. nbool.
  destruct els as [|e l] using rev_ind; [|clear IHl].
  - cbn [map join app]. rewrite app_nil_r. unfold ws_ok in H. rewrite H.
    rewrite (done_insert (text d) (d_pre d ++ pre ++ 91 :: w) (93 :: post ++ d_post d)).
    + rewrite render_arr. cbn [app map join]. unfold elem_text. cbn [e_pre e_val e_post]. f_equal. same_text.
    + rewrite Ht. cbn [map join]. same_text.
    + rewrite render_arr. cbn [map join]. len.
  - rewrite forallb_app in H0. cbn [forallb] in H0. nbool. unfold elem_ok in H1. nbool.
    destruct (wf_nonblank _ H4) as (c & r & Hcr & Hc).
    replace (forallb is_ws (w ++ join (map elem_text (l ++ [e])))) with false.
    2:{ symmetry. rewrite map_app. cbn [map]. rewrite join_split. unfold elem_text at 2. rewrite Hcr.
        replace (w ++ jpre (map elem_text l) ++ (e_pre e ++ (c :: r) ++ e_post e) ++ jpost [])
          with ((w ++ jpre (map elem_text l) ++ e_pre e) ++ c :: (r ++ e_post e ++ jpost [])) by same_text.
        apply not_blank. exact Hc. }
    rewrite (done_insert (text d) (d_pre d ++ pre ++ 91 :: w ++ join (map elem_text (l ++ [e]))) (93 :: post ++ d_post d)).
    + rewrite render_arr. rewrite (map_app _ (l ++ [e])). cbn [map]. rewrite join_snoc by (destruct l; discriminate).
      unfold elem_text at 3. cbn [e_pre e_val e_post app]. rewrite app_nil_r. f_equal. same_text.
    + rewrite Ht. same_text.
    + rewrite Hr. len.
Qed.

Lemma wf_arr_snoc w els value : wf (JArr w els) = true -> wf value = true -> wf (JArr w (els ++ [Elem [] value []])) = true.
Proof.
  rewrite !wf_arr, forallb_app. cbn [forallb]. unfold elem_ok at 3. cbn [e_pre e_val e_post ws_ok forallb].
  intros H Hv. nbool. rewrite H, H0, Hv. reflexivity.
Qed.

Theorem add_ok d p value c' :
  wf_doc d = true -> wf value = true ->
  d_modify (content (d_val d)) p (d_append (content value)) = Some c' ->
  exists d', Add_ (text d) (render value) p = Done (text d') /\ matches d d' c'.
Proof.
  intros Hw Hv Hm. destruct (modify_focus _ _ _ _ Hm) as (pre & v & post & Hf & Hg).
  destruct v as [s|s|w els|w ms]; try (contradiction Hg; reflexivity).
  unshelve epose proof (replaced d p pre _ post (JArr w (els ++ [Elem [] value []])) _ c' Hw Hf _ _ Hm) as (d' & Hd & Ht & _).
  - apply wf_arr_snoc; [|exact Hv]. eapply focus_wf; [exact Hf|]. apply wf_doc_val. exact Hw.
  - cbn [content d_append]. rewrite map_app. reflexivity.
  - exists d'. split; [|exact Hd]. rewrite Ht. apply add_arr; assumption.
Qed.

(** *** What the braces test accepts: containers of the right kind, and strings that look like them. *)
Lemma last_snoc {A} (l : list A) a z : last (l ++ [a]) z = a.
Proof. apply last_last. Qed.

Lemma braces_at_neq json s e o c P x R : json = P ++ x :: R -> s = length P -> x <> o -> braces_at json s e o c = Ok false.
Proof.
  intros Hj Hs Hx. unfold braces_at. rewrite (at_app_eq json P x R s Hj Hs). cbn [bind].
  apply N.eqb_neq in Hx. rewrite Hx. reflexivity.
Qed.

Lemma braces_at_present d p pre v post o c :
  wf_doc d = true -> focus (d_val d) p pre v post ->
  o = 91 /\ c = 93 \/ o = 123 /\ c = 125 ->
  braces_at (text d) (length (d_pre d ++ pre) + qoff v) (length (d_pre d ++ pre) + qoff v + length (bare v)) o c
  = Ok (looks o c v).
Proof.
  intros Hw Hf Hoc. pose proof (text_focus _ _ _ _ _ Hf) as Ht.
  pose proof (focus_wf _ _ _ _ _ Hf (wf_doc_val _ Hw)) as Hwv.
  assert (Ho34 : o <> 34) by lia.
  set (P := d_pre d ++ pre) in *. set (Q := post ++ d_post d) in *.
  destruct v as [s|s|w els|w ms]; cbn [qoff looks].
  - cbn [wf] in Hwv. unfold scalar_ok in Hwv. destruct s as [|x s]; [discriminate|].
    cbn [forallb] in Hwv. apply andb_true_iff in Hwv. destruct Hwv as [Hx _].
    eapply braces_at_neq; [rewrite Ht; cbn [render app]; reflexivity|lia|].
    intros ->. destruct Hoc as [[-> _]|[-> _]]; discriminate Hx.
  - rewrite bare_string. cbn [render] in Ht. destruct s as [|x s].
    + eapply braces_at_neq with (P := P ++ [34]) (x := 34); [rewrite Ht; same_text|len|lia].
    + destruct (N.eqb_spec x o) as [-> |Hx].
      2:{ cbn [andb]. eapply braces_at_neq with (P := P ++ [34]) (x := x); [rewrite Ht; same_text|len|exact Hx]. }
      unfold braces_at. rewrite (at_app_eq (text d) (P ++ [34]) o (s ++ 34 :: Q)); [|rewrite Ht; same_text|len].
      cbn [bind andb]. rewrite N.eqb_refl.
      assert (Hl : exists l z, o :: s = l ++ [z]) by (destruct (exists_last (l := o :: s)) as (l & z & E); [discriminate|]; eauto).
      destruct Hl as (l & z & E). rewrite E in *. rewrite last_snoc.
      replace (length P + 1 + length (l ++ [z]))%nat with (S (length (P ++ 34 :: l))) by len. cbn [at_pred].
      rewrite (at_app_eq (text d) (P ++ 34 :: l) z (34 :: Q)); [reflexivity|rewrite Ht; same_text|reflexivity].
  - assert (Hr : render (JArr w els) = 91 :: (w ++ join (map elem_text els)) ++ [93]) by (rewrite render_arr; same_text).
    destruct Hoc as [[-> ->]|[-> ->]].
    + eapply braces_at_spec; [rewrite Ht, Hr; reflexivity|lia|]. unfold bare. rewrite Hr. len.
    + eapply braces_at_neq with (x := 91); [rewrite Ht, Hr; reflexivity|lia|discriminate].
  - assert (Hr : render (JObj w ms) = 123 :: (w ++ join (map mem_text ms)) ++ [125]) by (rewrite render_obj; same_text).
    destruct Hoc as [[-> ->]|[-> ->]].
    + eapply braces_at_neq with (x := 123); [rewrite Ht, Hr; reflexivity|lia|discriminate].
    + eapply braces_at_spec; [rewrite Ht, Hr; reflexivity|lia|]. unfold bare. rewrite Hr. len.
Qed.


Lemma root_wrong_kind d o c exp : wf_doc d = true -> 
  (o = 91 /\ is_arr (d_val d) = false \/ o = 123 /\ is_obj (d_val d) = false) ->
  root_span (text d) o c exp = Err exp.
Proof.
  intros Hw H. unfold root_span, text. pose proof (wf_doc_val _ Hw) as Hv.
  assert (Hpre : ws_ok (d_pre d) = true) by (unfold wf_doc in Hw; nbool; assumption).
  assert (exists x r, render (d_val d) = x :: r /\ is_ws x = false /\ x <> o) as (x & r & Hr & Hx & Hxo).
  { destruct (wf_nonblank _ Hv) as (x & r & Hr & Hx). exists x, r. split; [exact Hr|]. split; [exact Hx|].
    destruct (d_val d) as [s|s|w els|w ms].
    - cbn [wf] in Hv. unfold scalar_ok in Hv. cbn [render] in Hr. subst s. cbn [forallb] in Hv.
      apply andb_true_iff in Hv. destruct Hv as [Hv _]. intros ->. destruct H as [[-> _]|[-> _]]; discriminate.
    - cbn [render] in Hr. injection Hr as <- _. lia.
    - cbn [render] in Hr. injection Hr as <- _. destruct H as [[-> H]|[-> _]]; [discriminate H|lia].
    - cbn [render] in Hr. injection Hr as <- _. destruct H as [[-> _]|[-> H]]; [lia|discriminate H]. }
  rewrite Hr. cbn [app]. rewrite root_first_other; [reflexivity|assumption|assumption|assumption].
Qed.

(** Add on something that is not an array. *)
Theorem add_not_array d p pre v post value :
  wf_doc d = true -> focus (d_val d) p pre v post -> is_arr v = false -> (p <> [] -> looks 91 93 v = false) ->
  Add_ (text d) value p = Fail (Some (text d)) (if (length (text d) <? 2)%nat then EBadJSON 0 else EArrayExpected).
Proof.
  intros Hw Hf Hv Hl. unfold Add_. destruct (length (text d) <? 2)%nat; [reflexivity|].
  destruct p as [|x p].
  - inversion Hf; subst. unfold target_span. rewrite root_wrong_kind by auto. reflexivity.
  - destruct (core_present d (x :: p) pre v post Hw ltac:(discriminate) Hf) as (ks & Hcore).
    unfold target_span. rewrite (Hcore false). cbn [bind ubind].
    rewrite (braces_at_present d (x :: p) pre v post 91 93 Hw Hf) by auto. cbn [pbind].
    rewrite Hl by discriminate. reflexivity.
Qed.

Definition new_mem (k : bytes) (v : jv) : mem jv := Mem [] k [] [] v [].

Lemma wf_obj_snoc w ms k value : wf (JObj w ms) = true -> str_ok k = true -> wf value = true ->
  wf (JObj w (ms ++ [new_mem k value])) = true.
Proof.
  rewrite !wf_obj, forallb_app. cbn [forallb]. unfold mem_ok at 3. cbn [m_pre m_key m_mid m_mid2 m_val m_post new_mem ws_ok forallb].
  intros H Hk Hv. nbool. rewrite H, H0, Hk, Hv. reflexivity.
Qed.

Lemma akv_value value : match option_map render value with None => b "null" | Some v => v end = render (value_text value).
Proof. destruct value; reflexivity. Qed.

Lemma mem_nonblank m A B : mem_ok m = true -> forallb is_ws (A ++ mem_text m ++ B) = false.
Proof.
  intros _. unfold mem_text.
  replace (A ++ (m_pre m ++ 34 :: m_key m ++ 34 :: m_mid m ++ 58 :: m_mid2 m ++ render (m_val m) ++ m_post m) ++ B)
    with ((A ++ m_pre m) ++ 34 :: (m_key m ++ 34 :: m_mid m ++ 58 :: m_mid2 m ++ render (m_val m) ++ m_post m ++ B)) by same_text.
  apply not_blank. reflexivity.
Qed.

Lemma add_kv_at_obj d p pre w ms post k value :
  wf_doc d = true -> focus (d_val d) p pre (JObj w ms) post ->
  let out := d_pre d ++ pre ++ render (JObj w (ms ++ [new_mem k (value_text value)])) ++ post ++ d_post d in
  AddKeyValue (text d) k (option_map render value) p =
  match ms with
  | [] => Done out
  | _ => match core (text d) false (p ++ [k]) with
         | Panic => UPanic
         | Err er => if err_equal (Some er) 8 then Done out else Fail (Some (text d)) er
         | Ok _ => Fail (Some (text d)) (EKeyAlreadyExist k)
         end
  end.
Proof.
  intros Hw Hf. pose proof (focus_wf _ _ _ _ _ Hf (wf_doc_val _ Hw)) as Hwv.
  unfold AddKeyValue. rewrite akv_value. rewrite (two_bytes _ _ _ _ _ Hf eq_refl).
  assert (Hr : render (JObj w ms) = 123 :: (w ++ join (map mem_text ms)) ++ [125]) by (rewrite render_obj; same_text).
  rewrite (target_span_spec d p pre _ post _ _ _ _ Hw Hf Hr eq_refl eq_refl eq_refl). cbn [ubind].
  pose proof (text_focus _ _ _ _ _ Hf) as Ht. rewrite Hr in Ht.
  rewrite (braces_at_spec (text d) _ _ _ _ _ _ _ Ht eq_refl) by (rewrite Hr; f_equal; same_text). cbn [pbind].
  rewrite (blank_between_spec (text d) _ _ _ _ _ _ _ Ht eq_refl) by (rewrite Hr; f_equal; same_text).
  rewrite wf_obj in Hwv. nbool.
  destruct ms as [|m l] using rev_ind; [|clear IHl].
  - cbn [map join app]. rewrite app_nil_r. unfold ws_ok in H. rewrite H.
    rewrite (done_insert (text d) (d_pre d ++ pre ++ 123 :: w) (125 :: post ++ d_post d)).
    + rewrite render_obj. cbn [app map join]. unfold mem_text. cbn [m_pre m_key m_mid m_mid2 m_val m_post new_mem].
      f_equal. same_text.
    + rewrite Ht. cbn [map join]. same_text.
    + rewrite render_obj. cbn [map join]. len.
  - rewrite forallb_app in H0. cbn [forallb] in H0. nbool.
    replace (forallb is_ws (w ++ join (map mem_text (l ++ [m])))) with false.
    2:{ symmetry. rewrite map_app. cbn [map]. rewrite join_split.
        rewrite app_assoc. apply mem_nonblank. assumption. }
    replace (match l ++ [m] with [] => Done (d_pre d ++ pre ++ render (JObj w ((l ++ [m]) ++ [new_mem k (value_text value)])) ++ post ++ d_post d)
             | _ => match core (text d) false (p ++ [k]) with
                    | Panic => UPanic
                    | Err er => if err_equal (Some er) 8 then Done (d_pre d ++ pre ++ render (JObj w ((l ++ [m]) ++ [new_mem k (value_text value)])) ++ post ++ d_post d) else Fail (Some (text d)) er
                    | Ok _ => Fail (Some (text d)) (EKeyAlreadyExist k)
                    end end)
      with (match core (text d) false (p ++ [k]) with
                    | Panic => UPanic
                    | Err er => if err_equal (Some er) 8 then Done (d_pre d ++ pre ++ render (JObj w ((l ++ [m]) ++ [new_mem k (value_text value)])) ++ post ++ d_post d) else Fail (Some (text d)) er
                    | Ok _ => Fail (Some (text d)) (EKeyAlreadyExist k)
                    end) by (destruct l; reflexivity).
    destruct (core (text d) false (p ++ [k])) as [x|er|]; try reflexivity. destruct (err_equal (Some er) 8); [|reflexivity].
    rewrite (done_insert (text d) (d_pre d ++ pre ++ 123 :: w ++ join (map mem_text (l ++ [m]))) (125 :: post ++ d_post d)).
    + rewrite render_obj. rewrite (map_app _ (l ++ [m])). cbn [map]. rewrite join_snoc by (destruct l; discriminate).
      unfold mem_text at 3. cbn [m_pre m_key m_mid m_mid2 m_val m_post new_mem app]. f_equal. same_text.
    + rewrite Ht. same_text.
    + rewrite Hr. len.
Qed.

Theorem add_kv_obj d p pre w ms post k value :
  wf_doc d = true -> focus (d_val d) p pre (JObj w ms) post ->
  (ms <> [] -> core (text d) false (p ++ [k]) = Err (EKeyNotFound k)) ->
  AddKeyValue (text d) k (option_map render value) p =
  Done (d_pre d ++ pre ++ render (JObj w (ms ++ [new_mem k (value_text value)])) ++ post ++ d_post d).
Proof.
  intros Hw Hf Habs. rewrite (add_kv_at_obj d p pre w ms post k value Hw Hf). cbv zeta. destruct ms as [|m ms]; [reflexivity|].
  rewrite Habs by discriminate. rewrite err_equal_spec by reflexivity. reflexivity.
Qed.

Lemma d_add_absent k v ms : nokey k ms -> d_add k v (content (JObj [] ms)) = Some (DObj (map mpair ms ++ [(k, v)])).
Proof.
  intro H. cbn [content d_add]. fold mpair. rewrite assoc_mpair. apply find_mem_none in H. rewrite H. reflexivity.
Qed.

Lemma content_snoc w ms k v : content (JObj w (ms ++ [new_mem k v])) = DObj (map mpair ms ++ [(k, content v)]).
Proof. cbn [content]. rewrite map_app. reflexivity. Qed.

Theorem add_kv_ok d p k value c' :
  wf_doc d = true -> wf (value_text value) = true -> str_ok k = true ->
  d_modify (content (d_val d)) p (d_add k (content (value_text value))) = Some c' ->
  (seen_absent d p k \/ exists w, lookup (d_val d) p = Some (JObj w [])) ->
  exists d', AddKeyValue (text d) k (option_map render value) p = Done (text d') /\ matches d d' c'.
Proof.
  intros Hw Hv Hk Hm Habs. destruct (modify_focus _ _ _ _ Hm) as (pre & v & post & Hf & Hg).
  destruct v as [s|s|w els|w ms]; try (contradiction Hg; reflexivity).
  unshelve epose proof (replaced d p pre _ post (JObj w (ms ++ [new_mem k (value_text value)])) _ c' Hw Hf _ _ Hm) as (d' & Hd & Ht & _).
  - apply wf_obj_snoc; [|exact Hk|exact Hv]. eapply focus_wf; [exact Hf|]. apply wf_doc_val. exact Hw.
  - rewrite content_snoc. cbn [content d_add] in *. fold mpair in *. rewrite assoc_mpair in *.
    destruct (find_mem k ms); [contradiction Hg; reflexivity|reflexivity].
  - exists d'. split; [|exact Hd]. rewrite Ht. apply add_kv_obj; [exact Hw|exact Hf|].
    intro Hne. destruct Habs as [Ha|(w' & Hl)].
    + apply core_seen_absent; assumption.
    + apply focus_lookup in Hf. congruence.
Qed.

Theorem add_kv_present d p k value u :
  wf_doc d = true -> d_lookup (content (d_val d)) (p ++ [k]) = Some u ->
  (exists w ms, lookup (d_val d) p = Some (JObj w ms)) ->
  AddKeyValue (text d) k value p = Fail (Some (text d)) (EKeyAlreadyExist k).
Proof.
  intros Hw Hl (w & ms & Hp). destruct (lookup_focus _ _ _ Hp) as (pre & post & Hf).
  pose proof (focus_wf _ _ _ _ _ Hf (wf_doc_val _ Hw)) as Hwv.
  unfold AddKeyValue. rewrite (two_bytes _ _ _ _ _ Hf eq_refl).
  assert (Hr : render (JObj w ms) = 123 :: (w ++ join (map mem_text ms)) ++ [125]) by (rewrite render_obj; same_text).
  rewrite (target_span_spec d p pre _ post _ _ _ _ Hw Hf Hr eq_refl eq_refl eq_refl). cbn [ubind].
  pose proof (text_focus _ _ _ _ _ Hf) as Ht. rewrite Hr in Ht.
  rewrite (braces_at_spec (text d) _ _ _ _ _ _ _ Ht eq_refl) by (rewrite Hr; f_equal; same_text). cbn [pbind].
  rewrite (blank_between_spec (text d) _ _ _ _ _ _ _ Ht eq_refl) by (rewrite Hr; f_equal; same_text).
  rewrite lookup_content in Hl. destruct (lookup (d_val d) (p ++ [k])) as [v|] eqn:E; [|discriminate].
  destruct (lookup_focus _ _ _ E) as (pre2 & post2 & Hf2).
  destruct (core_present d (p ++ [k]) pre2 v post2 Hw ltac:(destruct p; discriminate) Hf2) as (ks & Hc).
  rewrite (Hc false). destruct ms as [|m l] using rev_ind; [|clear IHl].
  { apply focus_split in Hf2. destruct Hf2 as (? & c & ? & ? & ? & Hf3 & Hf4 & _ & _).
    pose proof (focus_value _ _ _ _ _ _ _ _ Hf Hf3) as <-. inversion Hf4; subst. destruct l1; discriminate. }
  replace (forallb is_ws (w ++ join (map mem_text (l ++ [m])))) with false; [reflexivity|].
  symmetry. rewrite map_app. cbn [map]. rewrite join_split. rewrite app_assoc. apply mem_nonblank.
  rewrite wf_obj, forallb_app in Hwv. cbn [forallb] in Hwv. nbool. assumption.
Qed.

Theorem add_kv_not_object d p pre v post k value :
  wf_doc d = true -> focus (d_val d) p pre v post -> is_obj v = false -> (p <> [] -> looks 123 125 v = false) ->
  AddKeyValue (text d) k value p =
  Fail (Some (text d)) (if (length (text d) <? 2)%nat then EBadJSON 0 else EObjectExpected).
Proof.
  intros Hw Hf Hv Hl. unfold AddKeyValue. destruct (length (text d) <? 2)%nat; [reflexivity|].
  destruct p as [|x p].
  - inversion Hf; subst. unfold target_span. rewrite root_wrong_kind by auto. reflexivity.
  - destruct (core_present d (x :: p) pre v post Hw ltac:(discriminate) Hf) as (ks & Hcore).
    unfold target_span. rewrite (Hcore false). cbn [bind ubind].
    rewrite (braces_at_present d (x :: p) pre v post 123 125 Hw Hf) by auto. cbn [pbind].
    rewrite Hl by discriminate. reflexivity.
Qed.

(** ** Insert *)
Definition ins_elem (w : bytes) (l1 : list (elem jv)) (value : jv) (e : elem jv) (l2 : list (elem jv)) : jv :=
  JArr w (l1 ++ Elem (e_pre e) value [] :: Elem [] (e_val e) (e_post e) :: l2).

Lemma ins_elem_wf w l1 value e l2 : wf (JArr w (l1 ++ e :: l2)) = true -> wf value = true ->
  wf (ins_elem w l1 value e l2) = true.
Proof.
  unfold ins_elem. rewrite !wf_arr, !forallb_app. cbn [forallb]. intros H Hv. nbool. unfold elem_ok in H1. nbool.
  unfold elem_ok at 2 3. cbn [e_pre e_val e_post]. cbn [ws_ok forallb].
  repeat match goal with H : _ = true |- _ => rewrite H end. reflexivity.
Qed.

Lemma firstn_app_len {A} (l1 l2 : list A) : firstn (length l1) (l1 ++ l2) = l1.
Proof. rewrite firstn_app, Nat.sub_diag, firstn_all. cbn. apply app_nil_r. Qed.

Lemma ins_elem_content w l1 value e l2 :
  d_insert (Z.of_nat (length l1)) (content value) (content (JArr w (l1 ++ e :: l2))) = Some (content (ins_elem w l1 value e l2)).
Proof.
  cbn [content d_insert ins_elem]. rewrite !map_app. cbn [map e_val].
  rewrite <- (map_length (fun e => content (e_val e)) l1), nth_z_app, Nat2Z.id, firstn_app_len, skipn_length_app.
  reflexivity.
Qed.

(** The whitespace layouts on which Insert works: the element is the only one, or not the last one, or
    nothing separates it from the comma before it. *)
Definition insertable (l1 : list (elem jv)) (e : elem jv) (l2 : list (elem jv)) : Prop :=
  l1 = [] \/ l2 <> [] \/ e_pre e = [].

Definition insert_span (json value : bytes) (s e : nat) : upd :=
  pbind (back_edge json (pred s)) (fun sedge =>
  let eedge := fwd_edge (skipn e json) e in
  pbind (at_ json sedge) (fun sc =>
  pbind (at_ json eedge) (fun ec =>
  if is_open sc && (sc + 2 =? ec) then done_replace json (value ++ [44]) s s
  else if ec =? 44 then done_replace json (value ++ [44]) s s
  else if sc =? 44 then
    match s with
    | O => UPanic
    | S p => done_replace json (44 :: value) p p
    end
  else Fail (Some json) (EBadJSON s)))).

Lemma Insert_unfold json index value path : Insert json index value path =
  ubind json (target_span json 91 93 EArrayExpected path) (fun '(s, e) =>
  pbind (braces_at json s e 91 93) (fun ok =>
  if ok then
    ubind json (core json false (path ++ [itoa index])) (fun '(_, s, e) =>
    pbind (unquote_start json s) (fun s => pbind (unquote_end json e) (fun e => insert_span json value s e)))
  else Fail (Some json) EArrayExpected)).
Proof.
  unfold Insert, unquote_start, unquote_end, insert_span.
  destruct (target_span json 91 93 EArrayExpected path) as [[s e]| |]; try reflexivity. cbn [ubind].
  destruct (braces_at json s e 91 93) as [[]| |]; try reflexivity. cbn [pbind].
  destruct (core json false (path ++ [itoa index])) as [[[ks s'] e']| |]; try reflexivity. cbn [ubind].
  destruct (at_pred json s'); try reflexivity. cbn [bind pbind]. destruct (at_ json e'); reflexivity.
Qed.

Lemma insert_span_spec json A sc W1 X W2 ec B start e value :
  json = A ++ sc :: W1 ++ X ++ W2 ++ ec :: B ->
  ws_ok W1 = true -> ws_ok W2 = true -> is_ws sc = false -> is_ws ec = false ->
  start = length (A ++ sc :: W1) -> e = length (A ++ sc :: W1 ++ X) ->
  (is_open sc && (sc + 2 =? ec) = true \/ ec = 44 \/ sc = 44 /\ W1 = []) ->
  insert_span json value start e = Done (A ++ sc :: W1 ++ value ++ 44 :: X ++ W2 ++ ec :: B).
Proof.
  intros Hj H1 H2 Hs He -> -> Hcase. unfold insert_span.
  replace (pred (length (A ++ sc :: W1))) with (length A + length W1)%nat by len.
  rewrite (back_edge_spec json A sc W1 (X ++ W2 ++ ec :: B) Hj H1 Hs). cbn [pbind].
  replace (skipn (length (A ++ sc :: W1 ++ X)) json) with (W2 ++ ec :: B).
  2:{ rewrite Hj. replace (A ++ sc :: W1 ++ X ++ W2 ++ ec :: B) with ((A ++ sc :: W1 ++ X) ++ W2 ++ ec :: B) by same_text.
      symmetry. apply skipn_length_app. }
  rewrite (fwd_edge_spec W2 ec B _ H2 He).
  rewrite (at_app_eq json A sc (W1 ++ X ++ W2 ++ ec :: B) _ Hj eq_refl). cbn [pbind].
  rewrite (at_app_eq json (A ++ sc :: W1 ++ X ++ W2) ec B); [|rewrite Hj; same_text|len]. cbn [pbind].
  assert (E : done_replace json (value ++ [44]) (length (A ++ sc :: W1)) (length (A ++ sc :: W1)) =
              Done (A ++ sc :: W1 ++ value ++ 44 :: X ++ W2 ++ ec :: B)).
  { rewrite (done_insert json (A ++ sc :: W1) (X ++ W2 ++ ec :: B)); [f_equal; same_text|rewrite Hj; same_text|reflexivity]. }
  destruct (is_open sc && (sc + 2 =? ec)); [exact E|].
  destruct (ec =? 44) eqn:E44; [exact E|].
  destruct Hcase as [Hc|[Hc|[-> ->]]]; [discriminate|subst ec; discriminate|].
  cbn [N.eqb Pos.eqb]. replace (length (A ++ [44])) with (S (length A)) by len.
  rewrite (done_insert json A (44 :: X ++ W2 ++ ec :: B)); [f_equal; same_text|rewrite Hj; same_text|reflexivity].
Qed.

Theorem insert_arr d p pre w l1 e l2 post value :
  wf_doc d = true -> focus (d_val d) p pre (JArr w (l1 ++ e :: l2)) post ->
  (Z.of_nat (length l1) <= int64_max)%Z -> insertable l1 e l2 ->
  Insert (text d) (Z.of_nat (length l1)) (render value) p =
  Done (d_pre d ++ pre ++ render (ins_elem w l1 value e l2) ++ post ++ d_post d).
Proof.
  intros Hw Hf Hmax Hins. pose proof (focus_wf _ _ _ _ _ Hf (wf_doc_val _ Hw)) as Hwv.
  rewrite Insert_unfold.
  assert (Hr : render (JArr w (l1 ++ e :: l2)) = 91 :: (w ++ join (map elem_text (l1 ++ e :: l2))) ++ [93]) by (rewrite render_arr; same_text).
  rewrite (target_span_spec d p pre _ post _ _ _ _ Hw Hf Hr eq_refl eq_refl eq_refl). cbn [ubind].
  pose proof (text_focus _ _ _ _ _ Hf) as Ht. rewrite Hr in Ht.
  rewrite (braces_at_spec (text d) _ _ _ _ _ _ _ Ht eq_refl) by (rewrite Hr; f_equal; same_text). cbn [pbind].
  clear Hr Ht.
  rewrite (core_arr d p (itoa (Z.of_nat (length l1))) w l1 e l2 pre post false Hw Hf).
  2:{ apply atoi_itoa. unfold in_int64. apply andb_true_iff. split; apply Z.leb_le; [unfold int64_min; lia|exact Hmax]. }
  cbv zeta iota. cbn [ubind].
  destruct (render_cut_elem w l1 e l2) as (sc & ec & A & W1 & W2 & B & Hr & Hpre & Hws & Hsc & Hec & Hcut & _ & Hcase).
  destruct (Hws Hwv) as [Hw1 Hw2].
  pose proof (text_focus _ _ _ _ _ Hf) as Ht.
  assert (Hoke : ws_ok w = true /\ ws_ok (e_pre e) = true /\ elem_ok e = true).
  { rewrite wf_arr, forallb_app in Hwv. cbn [forallb] in Hwv. nbool. assert (Hk := H1). unfold elem_ok in H1. nbool. auto. }
  destruct Hoke as (Hok1 & Hok2 & Hok3).
  assert (Ht2 : text d = (d_pre d ++ pre ++ arr_pre w l1 e) ++ render (e_val e) ++ arr_post e l2 ++ post ++ d_post d).
  { rewrite Ht, render_arr_split. same_text. }
  rewrite (unquote_start_spec (text d) (d_pre d ++ pre ++ arr_pre w l1 e) (e_val e) _ Ht2).
  2:{ rewrite app_assoc. apply noq_arr_pre; assumption. }
  cbn [pbind].
  rewrite (unquote_end_spec (text d) (d_pre d ++ pre ++ arr_pre w l1 e) (e_val e) _ Ht2).
  2:{ apply term_arr. assumption. }
  cbn [pbind].
  rewrite (insert_span_spec (text d) (d_pre d ++ pre ++ A) sc W1 (render (e_val e)) W2 ec (B ++ post ++ d_post d)).
  - f_equal. replace (render (ins_elem w l1 value e l2)) with
      (arr_pre w l1 e ++ render value ++ 44 :: render (e_val e) ++ W2 ++ ec :: B).
    + rewrite Hpre. same_text.
    + assert (Hpost : W2 ++ ec :: B = arr_post e l2).
      { apply (app_inv_head (arr_pre w l1 e ++ render (e_val e))). rewrite Hpre at 1.
        rewrite render_arr_split in Hr. rewrite <- !app_assoc, Hr. same_text. }
      rewrite Hpost. unfold ins_elem. rewrite render_arr, map_app. cbn [map]. rewrite join_split, jpost_cons.
      unfold elem_text at 2 3, arr_pre, arr_post. cbn [e_pre e_val e_post]. same_text.
  - rewrite Ht, Hr. same_text.
  - assumption.
  - assumption.
  - assumption.
  - assumption.
  - rewrite Hpre. f_equal. same_text.
  - rewrite Hpre. f_equal. same_text.
  - destruct Hcase as (C1 & C2 & C3 & C4). destruct Hins as [H|[H|H]].
    + rewrite (C1 H). destruct l2; [rewrite C3 by reflexivity; left; reflexivity|rewrite C4 by discriminate; auto].
    + right. left. apply C4. exact H.
    + destruct l1; [|destruct C2 as [-> ->]; [discriminate|auto]].
      rewrite C1 by reflexivity. destruct l2; [rewrite C3 by reflexivity; left; reflexivity|rewrite C4 by discriminate; auto].
Qed.

(** ** SetKey *)
Definition rename (m : mem jv) (k : bytes) : mem jv := Mem (m_pre m) k (m_mid m) (m_mid2 m) (m_val m) (m_post m).

Lemma setkey_loop_spec k : str_ok k = true -> forall R i bound, (i + length k < bound)%nat ->
  setkey_loop (k ++ 34 :: R) i bound = Ok (Some (i + length k)%nat).
Proof.
  revert k. apply (str_ind (fun k => forall R i bound, (i + length k < bound)%nat ->
    setkey_loop (k ++ 34 :: R) i bound = Ok (Some (i + length k)%nat))).
  - intros R i bound H. cbn [app setkey_loop length] in *. replace (i <? bound)%nat with true by (symmetry; apply Nat.ltb_lt; lia).
    cbn [N.eqb Pos.eqb]. f_equal. f_equal. lia.
  - intros c r H34 H92 _ IH R i bound H. cbn [app setkey_loop length] in *.
    replace (i <? bound)%nat with true by (symmetry; apply Nat.ltb_lt; lia).
    apply N.eqb_neq in H34, H92. rewrite H34, H92, IH by lia. f_equal. f_equal. lia.
  - intros x r _ IH R i bound H. cbn [app setkey_loop length] in *.
    replace (i <? bound)%nat with true by (symmetry; apply Nat.ltb_lt; lia).
    cbn [N.eqb Pos.eqb]. rewrite IH by lia. f_equal. f_equal. lia.
Qed.

Lemma removelast_snoc {A} (l : list A) a : removelast (l ++ [a]) = l.
Proof. apply removelast_last. Qed.

Lemma SetKey_unfold json k q x : k <> [] -> SetKey json k (q ++ [x]) =
      match core json false (q ++ [k]) with
      | Panic => UPanic
      | Ok _ => Fail (Some json) (EBadJSON 0)
      | Err e =>
          if err_equal (Some e) 8 then
            ubind json (core json false (q ++ [x])) (fun '(ks, s, _) =>
            match ks with
            | None => UPanic
            | Some ks =>
                pbind (setkey_loop (skipn ks json) ks s) (fun o =>
                match o with
                | Some i => done_replace json k ks i
                | None => Fail (Some json) (EBadJSON ks)
                end)
            end)
          else Fail (Some json) e
      end.
Proof.
  intro Hk. unfold SetKey. rewrite removelast_snoc. destruct k; [congruence|]. destruct (q ++ [x]) eqn:E; [destruct q; discriminate|].
  reflexivity.
Qed.

Theorem setkey_obj d q pre w l1 m l2 post k :
  wf_doc d = true -> focus (d_val d) q pre (JObj w (l1 ++ m :: l2)) post -> nokey (m_key m) l1 -> k <> [] ->
  core (text d) false (q ++ [k]) = Err (EKeyNotFound k) ->
  SetKey (text d) k (q ++ [m_key m]) =
  Done (d_pre d ++ pre ++ render (JObj w (l1 ++ rename m k :: l2)) ++ post ++ d_post d).
Proof.
  intros Hw Hf Hnk Hk Habs. pose proof (focus_wf _ _ _ _ _ Hf (wf_doc_val _ Hw)) as Hwv.
  rewrite SetKey_unfold by exact Hk. rewrite Habs, err_equal_spec by reflexivity. cbn [err_code Z.eqb Pos.eqb].
  rewrite (core_obj d q w l1 m l2 pre post false Hw Hf Hnk). cbv zeta iota. cbn [ubind].
  assert (Hokm : str_ok (m_key m) = true).
  { rewrite wf_obj, forallb_app in Hwv. cbn [forallb] in Hwv. nbool. unfold mem_ok in H1. nbool. assumption. }
  assert (Ht : text d = (d_pre d ++ pre ++ obj_kpre w l1 m) ++ m_key m ++ (obj_mid m ++ render (m_val m) ++ obj_post m l2 ++ post ++ d_post d)).
  { rewrite (text_focus _ _ _ _ _ Hf), render_obj_split. unfold obj_pre. same_text. }
  rewrite Ht at 1. rewrite skipn_length_app. unfold obj_mid at 1. cbn [app].
  rewrite setkey_loop_spec; [|exact Hokm|unfold obj_pre, obj_mid; len]. cbn [pbind].
  unfold done_replace. rewrite (replace_app_eq _ _ _ _ k _ _ Ht eq_refl) by len. cbn [pbind]. f_equal.
  rewrite (render_obj_split w l1 (rename m k) l2). unfold obj_pre, obj_kpre, obj_mid, obj_post, rename. cbn [m_pre m_key m_mid m_mid2 m_val m_post].
  same_text.
Qed.

Lemma assoc_rename_app {V} x k (l1 : list (bytes * V)) v l2 : Forall (fun kv => fst kv <> x) l1 ->
  assoc_rename x k (l1 ++ (x, v) :: l2) = l1 ++ (k, v) :: l2.
Proof.
  induction 1 as [|[k' u] l1 Hk H IH]; cbn.
  - rewrite bytes_eqb_refl. reflexivity.
  - cbn in Hk. apply bytes_eqb_neq in Hk. rewrite Hk, IH. reflexivity.
Qed.

Theorem setkey_ok d q x k c' :
  wf_doc d = true -> str_ok k = true -> k <> [] ->
  d_modify (content (d_val d)) q (d_rename x k) = Some c' -> seen_absent d q k ->
  exists d', SetKey (text d) k (q ++ [x]) = Done (text d') /\ matches d d' c'.
Proof.
  intros Hw Hk Hk0 Hm Habs. destruct (modify_focus _ _ _ _ Hm) as (pre & v & post & Hf & Hg).
  pose proof (focus_wf _ _ _ _ _ Hf (wf_doc_val _ Hw)) as Hwv.
  destruct v as [s|s|w els|w ms]; try (contradiction Hg; reflexivity).
  cbn [content d_rename] in Hg. fold mpair in Hg. rewrite !assoc_mpair in Hg.
  destruct (find_mem x ms) as [m|] eqn:Hx; [|contradiction Hg; reflexivity].
  destruct (find_mem k ms) as [|] eqn:Hkm; [contradiction Hg; reflexivity|].
  destruct (find_mem_split _ _ _ Hx) as (Hkx & l1 & l2 & -> & Hnk). subst x.
  unshelve epose proof (replaced d q pre _ post (JObj w (l1 ++ rename m k :: l2)) _ c' Hw Hf _ _ Hm) as (d' & Hd & Ht & _).
  - rewrite wf_obj, forallb_app in *. cbn [forallb] in *. nbool. unfold mem_ok in H1. nbool.
    unfold mem_ok at 2. cbn [m_pre m_key m_mid m_mid2 m_val m_post rename].
    repeat match goal with H : _ = true |- _ => rewrite H end. reflexivity.
  - cbn [content d_rename]. fold mpair. rewrite !assoc_mpair, Hx, Hkm. cbn [option_map]. f_equal. f_equal.
    rewrite !map_app. cbn [map]. change (mpair m) with (m_key m, content (m_val m)).
    rewrite assoc_rename_app by (apply nokey_pairs; exact Hnk). reflexivity.
  - exists d'. split; [|exact Hd]. rewrite Ht. apply setkey_obj; try assumption. apply core_seen_absent; assumption.
Qed.

(** SetKey to a key that is already there. *)
Theorem setkey_taken d q x k u :
  wf_doc d = true -> k <> [] -> d_lookup (content (d_val d)) (q ++ [k]) = Some u ->
  SetKey (text d) k (q ++ [x]) = Fail (Some (text d)) (EBadJSON 0).
Proof.
  intros Hw Hk Hl. rewrite SetKey_unfold by exact Hk.
  rewrite lookup_content in Hl. destruct (lookup (d_val d) (q ++ [k])) as [v|] eqn:E; [|discriminate].
  destruct (lookup_focus _ _ _ E) as (pre2 & post2 & Hf2).
  destruct (core_present d (q ++ [k]) pre2 v post2 Hw ltac:(destruct q; discriminate) Hf2) as (ks & Hc).
  rewrite (Hc false). reflexivity.
Qed.

(** SetKey on an array element. *)
Theorem setkey_array d q x k w els pre post :
  wf_doc d = true -> k <> [] -> focus (d_val d) q pre (JArr w els) post ->
  exists e, SetKey (text d) k (q ++ [x]) = Fail (Some (text d)) e.
Proof.
  intros Hw Hk Hf. rewrite SetKey_unfold by exact Hk.
  destruct (atoi k) as [z|] eqn:Hz.
  - destruct (nth_z els z) as [e|] eqn:En.
    + destruct (nth_z_split _ _ _ En) as (l1 & l2 & -> & ->).
      rewrite (core_arr d q k w l1 e l2 pre post false Hw Hf Hz). cbv zeta iota. eexists. reflexivity.
    + destruct (Z.eq_dec z 0) as [-> |Hz0].
      * assert (els = []) as ->.
        { destruct els as [|a els]; [reflexivity|]. discriminate En. }
        rewrite (core_empty_array d q k [] w pre post Hw Hf Hz). rewrite err_equal_spec by reflexivity. eexists. reflexivity.
      * rewrite (core_index_range d q k [] w els pre post false z Hw Hf Hz Hz0 En).
        rewrite err_equal_spec by reflexivity. eexists. reflexivity.
  - rewrite (core_index_expected d q k [] w els pre post false Hw Hf Hz). rewrite err_equal_spec by reflexivity. eexists. reflexivity.
Qed.

(** ** Store *)
Theorem store_ok d p k v c' :
  wf_doc d = true -> wf v = true -> str_ok k = true ->
  d_modify (content (d_val d)) p (d_store k (content v)) = Some c' ->
  (d_lookup (content (d_val d)) (p ++ [k]) <> None \/ seen_absent d p k) ->
  exists d', Store (text d) k (Some (render v)) p = Done (text d') /\ matches d d' c'.
Proof.
  intros Hw Hv Hk Hm Hcase. destruct (modify_focus _ _ _ _ Hm) as (pre & u & post & Hf & Hg).
  pose proof (focus_wf _ _ _ _ _ Hf (wf_doc_val _ Hw)) as Hwv.
  destruct u as [s|s|w els|w ms]; try (contradiction Hg; reflexivity).
  unfold Store. destruct (find_mem k ms) as [m|] eqn:Hx.
  - destruct (find_mem_split _ _ _ Hx) as (Hkx & l1 & l2 & -> & Hnk). subst k.
    pose proof (focus_mem _ _ _ _ _ _ _ _ Hf Hnk) as Hf2.
    destruct (core_present d (p ++ [m_key m]) _ _ _ Hw ltac:(destruct p; discriminate) Hf2) as (ks & Hc).
    rewrite (Hc false). cbv iota.
    destruct (focus_ends _ _ _ _ _ Hf2 (wf_doc_val _ Hw) ltac:(destruct p; discriminate)) as [N1 N2].
    rewrite (set_span_spec (text d) (render v) (d_pre d ++ pre ++ obj_pre w l1 m) (m_val m) ((obj_post m l2 ++ post) ++ d_post d)).
    2:{ apply N1. }
    2:{ rewrite (text_focus _ _ _ _ _ Hf2). same_text. }
    unshelve epose proof (replaced d p pre _ post (JObj w (l1 ++ with_val m v :: l2)) _ c' Hw Hf _ _ Hm) as (d' & Hd & Ht & _).
    + rewrite wf_obj, forallb_app in *. cbn [forallb] in *. nbool. unfold mem_ok in H1. nbool.
      unfold mem_ok at 2. cbn [m_pre m_key m_mid m_mid2 m_val m_post with_val].
      repeat match goal with H : _ = true |- _ => rewrite H end. reflexivity.
    + cbn [content d_store]. fold mpair. rewrite assoc_mpair, Hx. cbn [option_map]. f_equal. f_equal.
      rewrite assoc_set_mpair, set_mem_app by auto. reflexivity.
    + exists d'. split; [|exact Hd]. rewrite Ht. f_equal.
      rewrite (render_obj_split w l1 (with_val m v) l2).
      unfold obj_pre, obj_kpre, obj_mid, obj_post, with_val. cbn [m_pre m_key m_mid m_mid2 m_val m_post]. same_text.
  - destruct Hcase as [Hc|Habs].
    { exfalso. apply Hc. rewrite lookup_content. destruct (lookup (d_val d) (p ++ [k])) as [z|] eqn:E; [|reflexivity].
      destruct (lookup_focus _ _ _ E) as (pre2 & post2 & Hf2). apply focus_split in Hf2.
      destruct Hf2 as (? & c & ? & ? & ? & Hf3 & Hf4 & _ & _). pose proof (focus_value _ _ _ _ _ _ _ _ Hf Hf3) as <-.
      apply focus_lookup in Hf4. cbn in Hf4. rewrite Hx in Hf4. discriminate Hf4. }
    rewrite (core_seen_absent d p k [] false Hw Habs). rewrite err_equal_spec by reflexivity. cbn [err_code Z.eqb Pos.eqb].
    change (Some (render v)) with (option_map render (Some v)).
    apply (add_kv_ok d p k (Some v) c' Hw Hv Hk); [|left; exact Habs].
    cbn [value_text]. rewrite <- Hm. eapply d_modify_ext_at; [rewrite lookup_content, (focus_lookup _ _ _ _ _ Hf); reflexivity|].
    cbn [content d_add d_store]. fold mpair. rewrite assoc_mpair, Hx. reflexivity.
Qed.

(** ** Insert against the specification *)
Theorem insert_ok d p z value c' w els :
  wf_doc d = true -> wf value = true -> (z <= int64_max)%Z ->
  lookup (d_val d) p = Some (JArr w els) -> insert_layout els z ->
  d_modify (content (d_val d)) p (d_insert z (content value)) = Some c' ->
  exists d', Insert (text d) z (render value) p = Done (text d') /\ matches d d' c'.
Proof.
  intros Hw Hv Hmax Hl Hlay Hm. destruct (modify_focus _ _ _ _ Hm) as (pre & v & post & Hf & Hg).
  pose proof (focus_wf _ _ _ _ _ Hf (wf_doc_val _ Hw)) as Hwv.
  pose proof (focus_lookup _ _ _ _ _ Hf) as E. rewrite Hl in E. injection E as <-.
  cbn [content d_insert] in Hg. rewrite nth_z_map in Hg.
  destruct (nth_z els z) as [e|] eqn:Hz; [|contradiction Hg; reflexivity].
  pose proof Hz as Hz2. destruct (nth_z_split _ _ _ Hz) as (l1 & l2 & -> & ->).
  assert (Hi : insertable l1 e l2).
  { unfold insertable. destruct Hlay as [H|[H|(e' & H & He)]].
    - right. left. intros ->. rewrite app_length in H. cbn [length] in H. lia.
    - left. rewrite app_length in H. cbn [length] in H. destruct l1; [reflexivity|cbn in H; lia].
    - right. right. congruence. }
  destruct (replaced d p pre _ post (ins_elem w l1 value e l2) _ c' Hw Hf (ins_elem_wf _ _ _ _ _ Hwv Hv)
              (ins_elem_content w l1 value e l2) Hm) as (d' & Hd & Ht & _).
  exists d'. split; [|exact Hd]. rewrite Ht. apply insert_arr; assumption.
Qed.

Theorem insert_range d p z value w els :
  wf_doc d = true -> in_int64 z = true -> lookup (d_val d) p = Some (JArr w els) -> nth_z els z = None ->
  Insert (text d) z value p =
  Fail (Some (text d)) (match els with [] => if (z =? 0)%Z then EEmptyArray else EIndexOutOfRange | _ => EIndexOutOfRange end).
Proof.
  intros Hw Hz Hl Hn. destruct (lookup_focus _ _ _ Hl) as (pre & post & Hf).
  rewrite Insert_unfold.
  assert (Hr : render (JArr w els) = 91 :: (w ++ join (map elem_text els)) ++ [93]) by (rewrite render_arr; same_text).
  rewrite (target_span_spec d p pre _ post _ _ _ _ Hw Hf Hr eq_refl eq_refl eq_refl). cbn [ubind].
  pose proof (text_focus _ _ _ _ _ Hf) as Ht. rewrite Hr in Ht.
  rewrite (braces_at_spec (text d) _ _ _ _ _ _ _ Ht eq_refl) by (rewrite Hr; f_equal; same_text). cbn [pbind].
  destruct (Z.eqb_spec z 0) as [-> |Hz0].
  - destruct els as [|e els]; [|discriminate Hn].
    rewrite (core_empty_array d p (itoa 0) [] w pre post Hw Hf (atoi_itoa _ Hz)). reflexivity.
  - rewrite (core_index_range d p (itoa z) [] w els pre post false z Hw Hf (atoi_itoa _ Hz) Hz0 Hn).
    destruct els; reflexivity.
Qed.

Theorem insert_not_array d p pre v post z value :
  wf_doc d = true -> focus (d_val d) p pre v post -> is_arr v = false -> (p <> [] -> looks 91 93 v = false) ->
  Insert (text d) z value p = Fail (Some (text d)) EArrayExpected.
Proof.
  intros Hw Hf Hv Hl. unfold Insert. destruct p as [|x p].
  - inversion Hf; subst. unfold target_span. rewrite root_wrong_kind by auto. reflexivity.
  - destruct (core_present d (x :: p) pre v post Hw ltac:(discriminate) Hf) as (ks & Hcore).
    unfold target_span. rewrite (Hcore false). cbn [bind ubind].
    rewrite (braces_at_present d (x :: p) pre v post 91 93 Hw Hf) by auto. cbn [pbind].
    rewrite Hl by discriminate. reflexivity.
Qed.

(** ** Failed updates return their input (any bytes) *)
Lemma done_replace_not_fail json new s e o er : done_replace json new s e <> Fail o er.
Proof. unfold done_replace. destruct (replace json new s e); discriminate. Qed.

Ltac fail_case :=
  repeat match goal with
  | H : done_replace _ _ _ _ = Fail _ _ |- _ => exfalso; exact (done_replace_not_fail _ _ _ _ _ _ H)
  | H : Fail _ _ = Fail _ _ |- _ => injection H; clear H; intros; subst
  | H : UPanic = Fail _ _ |- _ => discriminate H
  | H : Done _ = Fail _ _ |- _ => discriminate H
  | |- ?x = ?x => reflexivity
  | H : match ?x with _ => _ end = Fail _ _ |- _ => destruct x; try discriminate H
  | H : (let '(_, _) := ?x in _) = Fail _ _ |- _ => destruct x; try discriminate H
  | H : ubind _ ?r _ = Fail _ _ |- _ => destruct r; cbn [ubind] in H
  | H : pbind ?r _ = Fail _ _ |- _ => destruct r; cbn [pbind] in H
  end.

Lemma set_span_fail json new s e o er : set_span json new s e = Fail o er -> o = Some json.
Proof. unfold set_span. intro H. fail_case. Qed.
Theorem set_fail json new p o e : Set_ json new p = Fail o e -> o = Some json.
Proof. unfold Set_. intro H. fail_case. eapply set_span_fail. eassumption. Qed.
Theorem setkey_fail json k p o e : SetKey json k p = Fail o e -> o = Some json.
Proof. unfold SetKey. intro H. fail_case. Qed.
Theorem delete_fail json p o e : Delete json p = Fail o e -> o = Some json.
Proof. unfold Delete. intro H. cbv zeta in H. fail_case. Qed.
Theorem add_fail json v p o e : Add_ json v p = Fail o e -> o = Some json.
Proof. unfold Add_. intro H. fail_case. Qed.
Theorem addkv_fail json k v p o e : AddKeyValue json k v p = Fail o e -> o = Some json.
Proof. unfold AddKeyValue. intro H. fail_case. Qed.
Theorem insert_fail json z v p o e : Insert json z v p = Fail o e -> o = Some json.
Proof. unfold Insert. intro H. cbv zeta in H. fail_case. Qed.
Theorem store_fail json k v p o e : Store json k v p = Fail o e -> o = Some json.
Proof.
  unfold Store. intro H. fail_case; try (eapply set_span_fail; eassumption). eapply addkv_fail. eassumption.
Qed.

(** ** Searches that end in another object *)
Section Strayed.
  Variables (d : doc) (q : list bytes) (x : bytes) (w : bytes) (ms : list (mem jv)) (v : jv).
  Hypothesis Hw : wf_doc d = true.
  Hypothesis Hl : lookup (d_val d) q = Some (JObj w ms).
  Hypothesis Hx : find_mem x ms = None.
  Hypothesis Hv : stray_at (d_val d) q x = Stray v.

  Lemma core_strayed : exists A B ks, text d = A ++ render v ++ B /\ wf v = true /\ terminated B /\ noq A /\
    core (text d) false (q ++ [x]) = Ok (Some ks, (length A + qoff v)%nat, (length A + qoff v + length (bare v))%nat).
  Proof.
    pose proof (core_stray_at d q x [] w ms false Hw Hl Hx (or_intror eq_refl)) as E. rewrite Hv in E. exact E.
  Qed.

  Theorem get_strayed : Get (text d) (q ++ [x]) = Ok (bare v).
  Proof.
    destruct core_strayed as (A & B & ks & Ht & Hwv & _ & _ & Hc). unfold Get.
    destruct (q ++ [x]) as [|y r] eqn:E; [destruct q; discriminate|]. rewrite Hc. cbn [bind].
    eapply slice_app_eq with (p := A ++ match v with JString _ => [34] | _ => [] end)
      (r := (match v with JString _ => [34] | _ => [] end) ++ B).
    - rewrite Ht, span_render. same_text.
    - destruct v; cbn [qoff]; len.
    - destruct v; cbn [qoff]; len.
  Qed.

  Theorem set_strayed new : exists A B, text d = A ++ render v ++ B /\ Set_ (text d) new (q ++ [x]) = Done (A ++ new ++ B).
  Proof.
    destruct core_strayed as (A & B & ks & Ht & Hwv & HB & HA & Hc). exists A, B. split; [exact Ht|]. unfold Set_.
    destruct (q ++ [x]) as [|y r] eqn:E; [destruct q; discriminate|]. rewrite Hc. cbn [ubind]. apply set_span_spec; assumption.
  Qed.

  Theorem store_strayed new : exists A B, text d = A ++ render v ++ B /\ Store (text d) x (Some new) q = Done (A ++ new ++ B).
  Proof.
    destruct core_strayed as (A & B & ks & Ht & Hwv & HB & HA & Hc). exists A, B. split; [exact Ht|]. unfold Store. rewrite Hc.
    apply set_span_spec; assumption.
  Qed.

  Theorem add_kv_strayed value : ms <> [] -> AddKeyValue (text d) x (option_map render value) q = Fail (Some (text d)) (EKeyAlreadyExist x).
  Proof.
    intro Hne. destruct core_strayed as (A & B & ks & Ht & Hwv & HB & HA & Hc).
    destruct (lookup_focus _ _ _ Hl) as (pre & post & Hf).
    rewrite (add_kv_at_obj d q pre w ms post x value Hw Hf). cbv zeta. destruct ms as [|m r]; [congruence|]. rewrite Hc. reflexivity.
  Qed.

  Theorem setkey_strayed y : x <> [] -> SetKey (text d) x (q ++ [y]) = Fail (Some (text d)) (EBadJSON 0).
  Proof.
    intro Hne. destruct core_strayed as (A & B & ks & Ht & Hwv & HB & HA & Hc). unfold SetKey. destruct x as [|c x']; [congruence|].
    rewrite removelast_last. destruct (q ++ [y]) as [|z r] eqn:E; [destruct q; discriminate|]. rewrite Hc. reflexivity.
  Qed.
End Strayed.

Theorem get_absent d q x w ms :
  wf_doc d = true -> lookup (d_val d) q = Some (JObj w ms) -> find_mem x ms = None ->
  match stray_at (d_val d) q x with
  | Nowhere => Get (text d) (q ++ [x]) = Err (EKeyNotFound x)
  | Stray v => Get (text d) (q ++ [x]) = Ok (bare v)
  | Unclear => True
  end.
Proof.
  intros Hw Hl Hx. destruct (stray_at (d_val d) q x) as [|v|] eqn:E; [|eapply get_strayed; eassumption|exact I].
  pose proof (core_stray_at d q x [] w ms false Hw Hl Hx (or_introl E)) as H. rewrite E in H. cbn [wants] in H.
  unfold Get. destruct (q ++ [x]) as [|y r] eqn:Eq; [destruct q; discriminate|]. rewrite H. reflexivity.
Qed.
