(** Iteration, listing, counting and type tests against the trees. *)
From Coq Require Import String.
From Verif Require Import GoStd Json SpecIter Core Skip Focus CoreProofs Errors Api ApiProofs Iter.

Local Open Scope N_scope.

(** ** Ends of values *)
Lemma render_snoc v : wf v = true -> exists p c, render v = p ++ [c] /\ is_ws c = false.
Proof.
  destruct v as [s|s|w els|w ms]; cbn [wf render]; intro H.
  - apply scalar_ok_inv in H. destruct H as [Hn H]. destruct (exists_last Hn) as (s' & c & ->).
    apply Forall_app in H. destruct H as [_ H]. inversion H; subst.
    exists s', c. split; [reflexivity|]. apply token_plain in H2. tauto.
  - exists (34 :: s), 34. split; reflexivity.
  - exists (91 :: w ++ join (map elem_text els)), 93. split; [same_text|reflexivity].
  - exists (123 :: w ++ join (map mem_text ms)), 125. split; [same_text|reflexivity].
Qed.

Lemma trim1_ws w c r : ws_ok w = true -> is_ws c = false -> trim1 (w ++ c :: r) = c :: r.
Proof.
  intros Hw Hc. apply ws_ok_Forall in Hw. induction Hw as [|d w Hd Hw IH].
  - cbn. rewrite <- is_ws_space, Hc. destruct r; reflexivity.
  - cbn [app]. destruct (w ++ c :: r) as [|x y] eqn:E; [destruct w; discriminate|].
    change (trim1 (d :: x :: y)) with (if space d then trim1 (x :: y) else d :: x :: y).
    rewrite <- is_ws_space, Hd. exact IH.
Qed.

Lemma ws_rev w : ws_ok w = true -> ws_ok (rev w) = true.
Proof.
  intro H. apply ws_ok_Forall. apply ws_ok_Forall in H. rewrite Forall_forall in *.
  intros x Hx. apply H. apply in_rev. exact Hx.
Qed.

Lemma trim_value u v w : ws_ok u = true -> wf v = true -> ws_ok w = true ->
  trim1 (u ++ render v ++ w) = render v ++ w /\ rev (trim1 (rev (render v ++ w))) = render v.
Proof.
  intros Hu Hv Hw. split.
  - destruct (render_cons v Hv) as (c & r & E & Hc). rewrite E. cbn [app]. apply trim1_ws; assumption.
  - destruct (render_snoc v Hv) as (p & c & E & Hc). rewrite E.
    rewrite !rev_app_distr. cbn [rev app]. rewrite trim1_ws by (try apply ws_rev; assumption).
    cbn [rev]. rewrite rev_involutive. reflexivity.
Qed.

Lemma render_hd v d : wf v = true -> (hd d (render v) =? 34) = match v with JString _ => true | _ => false end.
Proof.
  destruct v as [s|s|w els|w ms]; cbn [wf render]; intro H; try reflexivity.
  apply scalar_ok_inv in H. destruct H as [Hn H]. destruct s as [|c s]; [contradiction|].
  inversion H; subst. cbn [hd]. apply token_plain in H2. destruct H2 as [H2 _]. apply plain_neq in H2.
  apply eqb_false. tauto.
Qed.

Lemma cleanValue_value u v w : ws_ok u = true -> wf v = true -> ws_ok w = true ->
  cleanValue (u ++ render v ++ w) = Ok (bare v).
Proof.
  intros Hu Hv Hw. destruct (trim_value u v w Hu Hv Hw) as [T1 T2].
  unfold cleanValue. rewrite T1, T2.
  destruct (u ++ render v ++ w) as [|c0 r0] eqn:E.
  { destruct (render_cons v Hv) as (c & r & E' & _). rewrite E' in E. destruct u; discriminate. }
  rewrite render_hd by assumption. destruct v as [s|s|w0 els|w0 ms]; try reflexivity.
  cbn [render bare]. change (34 :: s ++ [34]) with ((34 :: s) ++ [34]). rewrite last_last. cbn [andb app N.eqb Pos.eqb].
  destruct (s ++ [34]) as [|a r] eqn:E2; [destruct s; discriminate|].
  rewrite <- E2, removelast_last. reflexivity.
Qed.

(** The whitespace after the opening bracket can be seen as part of the first item. *)
Definition absorb_e (w : bytes) (els : list (elem jv)) : list (elem jv) :=
  match els with [] => [] | e :: l => Elem (w ++ e_pre e) (e_val e) (e_post e) :: l end.
Definition absorb_m (w : bytes) (ms : list (mem jv)) : list (mem jv) :=
  match ms with
  | [] => []
  | m :: l => Mem (w ++ m_pre m) (m_key m) (m_mid m) (m_mid2 m) (m_val m) (m_post m) :: l
  end.

Lemma join_absorb_e w els : els <> [] -> w ++ join (map elem_text els) = join (map elem_text (absorb_e w els)).
Proof.
  destruct els as [|e l]; [contradiction|]. intros _. cbn [absorb_e map].
  rewrite !join_cons. unfold elem_text at 1 3. cbn. same_text.
Qed.
Lemma join_absorb_m w ms : ms <> [] -> w ++ join (map mem_text ms) = join (map mem_text (absorb_m w ms)).
Proof.
  destruct ms as [|e l]; [contradiction|]. intros _. cbn [absorb_m map].
  rewrite !join_cons. unfold mem_text at 1 3. cbn. same_text.
Qed.
Lemma absorb_e_ok w els : wf (JArr w els) = true -> forallb elem_ok (absorb_e w els) = true.
Proof.
  rewrite wf_arr. intro H. nbool. destruct els as [|e l]; [reflexivity|]. cbn [forallb absorb_e] in *.
  unfold elem_ok in *. cbn [e_pre e_val e_post]. nbool. rewrite ws_ok_app. repeat match goal with H : _ = true |- _ => rewrite H end. reflexivity.
Qed.
Lemma absorb_m_ok w ms : wf (JObj w ms) = true -> forallb mem_ok (absorb_m w ms) = true.
Proof.
  rewrite wf_obj. intro H. nbool. destruct ms as [|e l]; [reflexivity|]. cbn [forallb absorb_m] in *.
  unfold mem_ok in *. cbn [m_pre m_key m_mid m_mid2 m_val m_post]. nbool. rewrite ws_ok_app. repeat match goal with H : _ = true |- _ => rewrite H end. reflexivity.
Qed.
Lemma items_absorb w els : items (absorb_e w els) = items els.
Proof. destruct els; reflexivity. Qed.
Lemma keys_absorb w ms : keys (absorb_m w ms) = keys ms.
Proof. destruct ms; reflexivity. Qed.
Lemma values_absorb w ms : values (absorb_m w ms) = values ms.
Proof. destruct ms; reflexivity. Qed.
Lemma pairs_absorb w ms : pairs (absorb_m w ms) = pairs ms.
Proof. destruct ms; reflexivity. Qed.

(** ** IterateArray *)
Section IterArr.
  Context {St : Type}.
  Variable cb : St -> bytes -> St * (bool * option err).

  Definition closes (json : bytes) (i : nat) : bool :=
    match qscan json i with Some true => true | _ => false end.

  Lemma iter_arr_scan json start s :
    scanner json (itres St) unit (fun r i q l _ => iter_arr json (closes json) cb r i start l q s) 1.
  Proof.
    constructor; intros.
    - cbn [iter_arr]. pose proof H0 as H'. apply plain_neq in H'.
      rewrite (plain_not_open _ H0), (plain_not_close _ H0), !eqb_false by tauto.
      rewrite andb_false_r. reflexivity.
    - cbn [iter_arr]. rewrite (eqb_false c 34) by assumption. reflexivity.
    - cbn [iter_arr]. unfold closes. rewrite H1. reflexivity.
    - exists tt. reflexivity.
    - exists tt. cbn [iter_arr]. unfold closes. rewrite H1. reflexivity.
    - exists tt. apply open_cases in H0. destruct H0; subst c; reflexivity.
    - exists tt. apply close_cases in H0.
      assert (E : (S l =? 1)%nat = false) by (apply Nat.eqb_neq; lia).
      destruct H0; subst c; cbn -[Nat.eqb]; rewrite ?E; reflexivity.
    - exists tt. assert (E : (l =? 1)%nat = false) by (apply Nat.eqb_neq; lia).
      destruct H0; subst c; cbn -[Nat.eqb]; rewrite ?E; reflexivity.
  Qed.

  Definition idone (p : St * option err) : itres St := IDone (fst p) (snd p).

  Lemma iter_arr_run json els : forall pre post s,
    els <> [] -> forallb elem_ok els = true -> nobs pre ->
    json = pre ++ join (map elem_text els) ++ 93 :: post ->
    iter_arr json (closes json) cb (join (map elem_text els) ++ 93 :: post) (length pre) (length pre) 1 false s =
    idone (visit cb (items els) s).
  Proof.
    induction els as [|e l IH]; [contradiction|]. intros pre post s _ Hok Hn Hj.
    cbn [forallb] in Hok. apply andb_true_iff in Hok. destruct Hok as [He Hl].
    cbn [map] in *. rewrite join_cons in *. rewrite <- app_assoc in *.
    destruct (Skips_elem json _ _ _ _ (iter_arr_scan json (length pre) s) 0 e He pre
                (jpost (map elem_text l) ++ 93 :: post) 1%nat tt Hj Hn ltac:(lia)) as [Hn2 [e' E]].
    rewrite E. clear E e'.
    assert (Hcl : cleanValue (elem_text e) = Ok (bare (e_val e))).
    { unfold elem_ok in He. nbool. apply cleanValue_value; assumption. }
    assert (Hsl : slice json (length pre) (length (pre ++ elem_text e)) = Ok (elem_text e)).
    { rewrite Hj. apply slice_app. }
    destruct l as [|e2 l].
    - cbn. rewrite Hsl. cbn [ibind]. rewrite Hcl. cbn [ibind].
      destruct (cb s (bare (e_val e))) as [s' [go er]]. destruct er; [reflexivity|]. destruct go; reflexivity.
    - cbn [map]. rewrite jpost_cons. cbn [app iter_arr].
      change (44 =? 34) with false. change (is_open 44) with false. change (is_close 44) with false.
      cbn [andb Nat.eqb N.eqb Pos.eqb]. rewrite Hsl. cbn [ibind]. rewrite Hcl. cbn [ibind items map visit].
      destruct (cb s (bare (e_val e))) as [s' [go er]]. destruct er; [reflexivity|]. destruct go; [|reflexivity].
      specialize (IH ((pre ++ elem_text e) ++ [44]) post s').
      rewrite length_snoc in IH. cbn [map] in IH. rewrite join_cons in IH.
      apply IH; [discriminate|exact Hl|apply nobs_snoc; discriminate|].
      rewrite Hj. cbn [map]. rewrite jpost_cons. same_text.
  Qed.

  Lemma iter_arr_ext json c1 c2 rest : forall i start lv inq s,
    (forall j, (2 <= j)%nat -> c1 j = c2 j) -> (2 <= i)%nat \/ (1 <= i)%nat /\ inq = false ->
    iter_arr json c1 cb rest i start lv inq s = iter_arr json c2 cb rest i start lv inq s.
  Proof.
    induction rest as [|c r IH]; intros i start lv inq s Hc Hi; [reflexivity|].
    cbn [iter_arr]. destruct (c =? 34).
    - destruct inq.
      + rewrite Hc by (destruct Hi as [|[_ Hi]]; [assumption|discriminate]). apply IH; [exact Hc|]. left; lia.
      + apply IH; [exact Hc|]. left; lia.
    - destruct inq; [apply IH; [exact Hc|]; left; lia|].
      destruct (is_open c); [apply IH; [exact Hc|]; left; lia|].
      destruct (is_close c).
      + destruct (lv =? 0)%nat; [reflexivity|]. destruct ((c =? 93) && (lv =? 1)%nat); [reflexivity|].
        apply IH; [exact Hc|]; left; lia.
      + destruct ((lv =? 1)%nat && (c =? 44)); [|apply IH; [exact Hc|]; left; lia].
        destruct (slice json start i); cbn [ibind]; [|reflexivity|reflexivity].
        destruct (cleanValue a) as [v| |]; cbn [ibind]; [|reflexivity|reflexivity].
        destruct (cb s v) as [s' [go er]]. destruct er; [reflexivity|]. destruct go; [|reflexivity].
        apply IH; [exact Hc|]; left; lia.
  Qed.
End IterArr.

Lemma qback_app p q o x : qback p o = Some x -> qback (p ++ q) o = Some x.
Proof.
  revert o. induction p as [|c p IH]; intro o; cbn; [discriminate|].
  destruct (c =? 92); [apply IH|auto].
Qed.
Lemma qback_some p c o : c <> 92 -> qback (p ++ [c]) o <> None.
Proof.
  intro Hc. revert o. induction p as [|d p IH]; intro o; cbn.
  - rewrite eqb_false by assumption. discriminate.
  - destruct (d =? 92); [apply IH|discriminate].
Qed.

(** The shortened look-back sees the same when the second byte is not a backslash. *)
Lemma closes1_closes c0 c1 r j : c1 <> 92 -> (2 <= j)%nat -> closes1 (c0 :: c1 :: r) j = closes (c0 :: c1 :: r) j.
Proof.
  intros Hc Hj. unfold closes1, closes, qscan. destruct j as [|[|j]]; try lia.
  cbn [firstn skipn rev]. remember (rev (firstn j r) ++ [c1]) as p.
  destruct (qback p false) as [x|] eqn:E.
  - rewrite (qback_app _ [c0] _ x E). reflexivity.
  - subst p. exfalso. exact (qback_some _ _ _ Hc E).
Qed.

Lemma render_hd_bs v c r : wf v = true -> render v = c :: r -> c <> 92.
Proof.
  intros Hv E. destruct v as [s|s|w els|w ms]; cbn [render wf] in *; try (injection E as <- _; discriminate).
  subst s. apply scalar_ok_inv in Hv. destruct Hv as [_ Hv]. inversion Hv; subst. apply token_plain in H1. tauto.
Qed.

Lemma text_second d c0 c1 r : wf_doc d = true -> container (d_val d) = true -> text d = c0 :: c1 :: r -> c1 <> 92.
Proof.
  unfold wf_doc, text. intros Hw Hc E. nbool.
  assert (Hws : forall c r', ws_ok (c :: r') = true -> c <> 92).
  { intros c r' HH. apply ws_ok_Forall in HH. inversion HH; subst. apply ws_plain in H4. tauto. }
  destruct (d_pre d) as [|x [|y w]] eqn:Ep.
  - destruct (d_val d) as [s|s|w els|w ms] eqn:Ev; try discriminate; cbn [app] in E.
    + rewrite render_arr in E. injection E as _ E. rewrite wf_arr in H1. nbool.
      destruct w as [|y w]; [|injection E as <- _; eapply Hws; eassumption].
      destruct els as [|e l]; [injection E as <- _; discriminate|].
      cbn [forallb] in H2. nbool. unfold elem_ok in H2. nbool.
      cbn [map app] in E. rewrite join_cons in E. unfold elem_text in E.
      destruct (e_pre e) as [|y w]; [|injection E as <- _; eapply Hws; eassumption].
      destruct (render (e_val e)) as [|y w] eqn:Er; [destruct (render_cons _ H5) as (a & a' & Ea & _); congruence|].
      injection E as <- _. eapply render_hd_bs; eassumption.
    + rewrite render_obj in E. injection E as _ E. rewrite wf_obj in H1. nbool.
      destruct w as [|y w]; [|injection E as <- _; eapply Hws; eassumption].
      destruct ms as [|e l]; [injection E as <- _; discriminate|].
      cbn [forallb] in H2. nbool. unfold mem_ok in H2. nbool.
      cbn [map app] in E. rewrite join_cons in E. unfold mem_text in E.
      destruct (m_pre e) as [|y w]; [injection E as <- _; discriminate|].
      injection E as <- _; eapply Hws; eassumption.
  - cbn [app] in E. destruct (render (d_val d)) as [|y w] eqn:Er.
    { destruct (render_cons _ H1) as (a & a' & Ea & _); congruence. }
    injection E as _ <- _. eapply render_hd_bs; eassumption.
  - injection E as _ <- _. apply ws_ok_Forall in H. inversion H as [|? ? _ HH]; subst. inversion HH; subst.
    apply ws_plain in H4. tauto.
Qed.

(** ** The position a path points to *)
Lemma text_focus d p pre v post : focus (d_val d) p pre v post ->
  text d = (d_pre d ++ pre) ++ render v ++ post ++ d_post d.
Proof. intro H. unfold text. rewrite (focus_render _ _ _ _ _ H). same_text. Qed.

Lemma wf_doc_inv d : wf_doc d = true -> ws_ok (d_pre d) = true /\ wf (d_val d) = true /\ ws_ok (d_post d) = true.
Proof. unfold wf_doc. intro H. nbool. auto. Qed.

Lemma start_of_present d p pre v post : wf_doc d = true -> focus (d_val d) p pre v post ->
  start_of (text d) p = Ok (length (d_pre d ++ pre)).
Proof.
  intros Hw Hf. destruct p as [|x p].
  - inversion Hf; subst. cbn [start_of]. apply wf_doc_inv in Hw. destruct Hw as (H1 & H2 & H3).
    destruct (render_cons _ H2) as (c & r & E & Hc).
    unfold text. rewrite E. cbn [app]. rewrite skip_space_ws by assumption.
    rewrite app_nil_r. reflexivity.
  - destruct (core_present d (x :: p) pre v post Hw ltac:(discriminate) Hf) as (ks & Hcore).
    unfold start_of. rewrite (Hcore true). reflexivity.
Qed.

Lemma at_start d p pre v post c r : focus (d_val d) p pre v post -> render v = c :: r ->
  at_ (text d) (length (d_pre d ++ pre)) = Ok c.
Proof. intros Hf E. rewrite (text_focus _ _ _ _ _ Hf), E. apply at_app. Qed.

Lemma skip_space_last_ws w c r i : ws_ok w = true -> is_ws c = false ->
  skip_space_last (w ++ c :: r) i = Ok (i + length w)%nat.
Proof.
  intros Hw Hc. apply ws_ok_Forall in Hw. revert i. induction Hw as [|d w Hd Hw IH]; intro i; cbn.
  - rewrite <- is_ws_space, Hc. f_equal. lia.
  - rewrite <- is_ws_space, Hd. destruct (w ++ c :: r) as [|x y] eqn:E; [destruct w; discriminate|].
    rewrite IH. f_equal. lia.
Qed.

Lemma iter_array_enter {St} (cb : St -> bytes -> St * (bool * option err)) d p pre w els post s :
  wf_doc d = true -> focus (d_val d) p pre (JArr w els) post -> (2 < length (text d))%nat ->
  IterateArray (text d) cb p s =
  iter_arr (text d) (closes (text d)) cb (w ++ join (map elem_text els) ++ 93 :: post ++ d_post d)
    (S (length (d_pre d ++ pre))) (S (length (d_pre d ++ pre))) 1 false s.
Proof.
  intros Hw Hf Hlen. unfold IterateArray.
  rewrite (proj2 (Nat.ltb_ge _ _)) by lia. rewrite (proj2 (Nat.eqb_neq _ _)) by lia.
  assert (Hst : match p with [] => skip_space_last (text d) 0 | _ => do '(_, st, _) <- core (text d) true p; Ok st end
                = Ok (length (d_pre d ++ pre))).
  { destruct p as [|x p]; [|exact (start_of_present d (x :: p) _ _ _ Hw Hf)].
    inversion Hf; subst. apply wf_doc_inv in Hw. destruct Hw as (H1 & H2 & H3).
    destruct (render_cons _ H2) as (c & r & E & Hc). unfold text. rewrite E. cbn [app].
    rewrite skip_space_last_ws by assumption. rewrite app_nil_r. reflexivity. }
  rewrite Hst. cbn [ibind]. rewrite (at_start _ _ _ _ _ 91 (w ++ join (map elem_text els) ++ [93]) Hf eq_refl).
  cbn [ibind]. change (91 =? 91) with true. cbv beta iota.
  replace (skipn (S (length (d_pre d ++ pre))) (text d)) with (w ++ join (map elem_text els) ++ 93 :: post ++ d_post d).
  - destruct (text d) as [|c0 [|c1 r]] eqn:Et; try (cbn in Hlen; lia).
    apply iter_arr_ext.
    + intros j Hj. apply closes1_closes; [|exact Hj].
      apply (text_second d c0 c1 r Hw); [|exact Et]. eapply focus_container; [exact Hf|reflexivity].
    + right. split; [lia|reflexivity].
  - symmetry. rewrite (text_focus _ _ _ _ _ Hf), render_arr.
    rewrite <- app_comm_cons, (app_cons_assoc (d_pre d ++ pre)). rewrite skipn_app_eq by (rewrite length_snoc; reflexivity). same_text.
Qed.

Lemma iterate_array {St} (cb : St -> bytes -> St * (bool * option err)) d p w els s :
  wf_doc d = true -> lookup (d_val d) p = Some (JArr w els) -> els <> [] ->
  IterateArray (text d) cb p s = idone (visit cb (items els) s).
Proof.
  intros Hw Hl Hne. destruct (lookup_focus _ _ _ Hl) as (pre & post & Hf).
  pose proof (text_focus _ _ _ _ _ Hf) as Ht.
  assert (Hwa : wf (JArr w els) = true) by (eapply focus_wf; [exact Hf|apply wf_doc_inv in Hw; tauto]).
  rewrite (iter_array_enter cb d p pre w els post s Hw Hf).
  - rewrite app_assoc, join_absorb_e by assumption. rewrite <- (items_absorb w els), <- length_snoc with (c := 91).
    apply iter_arr_run.
    + destruct els; [contradiction|discriminate].
    + apply absorb_e_ok. exact Hwa.
    + apply nobs_snoc. discriminate.
    + rewrite Ht, render_arr, <- join_absorb_e by assumption. same_text.
  - rewrite Ht, render_arr. destruct els as [|e l]; [contradiction|].
    rewrite wf_arr in Hwa. cbn [forallb] in Hwa. nbool. unfold elem_ok in H0. nbool.
    destruct (render_cons _ H3) as (c & r & E & _).
    cbn [map]. rewrite join_cons. unfold elem_text at 1. rewrite E. len.
Qed.

Lemma clean_value_ws w : ws_ok w = true -> cleanValue w = Ok (skipn (pred (length w)) w).
Proof.
  intro H. destruct w as [|c w]; [reflexivity|]. unfold cleanValue.
  assert (T : trim1 (c :: w) = skipn (length w) (c :: w)).
  { apply ws_ok_Forall in H. revert c H. induction w as [|d w IH]; intros c H; [reflexivity|].
    inversion H; subst. change (trim1 (c :: d :: w)) with (if space c then trim1 (d :: w) else c :: d :: w).
    rewrite <- is_ws_space, H2. cbn [length skipn]. apply IH. assumption. }
  rewrite T. cbn [length pred].
  assert (exists x, skipn (length w) (c :: w) = [x] /\ is_ws x = true) as (x & E & Hx).
  { apply ws_ok_Forall in H. clear T. revert c H. induction w as [|d w IH]; intros c H.
    - inversion H; subst. exists c. auto.
    - inversion H; subst. cbn [length skipn]. apply IH. assumption. }
  rewrite E. cbn. apply ws_plain in Hx. destruct Hx as [Hx _]. apply plain_neq in Hx.
  rewrite eqb_false by tauto. reflexivity.
Qed.

Lemma iterate_array_empty {St} (cb : St -> bytes -> St * (bool * option err)) d p w s :
  wf_doc d = true -> lookup (d_val d) p = Some (JArr w []) ->
  IterateArray (text d) cb p s =
  if bytes_eqb (text d) (b "[]") then IDone s None
  else let '(s', (_, e)) := cb s (skipn (pred (length w)) w) in IDone s' e.
Proof.
  intros Hw Hl. destruct (lookup_focus _ _ _ Hl) as (pre & post & Hf).
  pose proof (text_focus _ _ _ _ _ Hf) as Ht.
  assert (Hwa : wf (JArr w []) = true) by (eapply focus_wf; [exact Hf|apply wf_doc_inv in Hw; tauto]).
  destruct (bytes_eqb_spec (text d) (b "[]")) as [E|E].
  - rewrite E. reflexivity.
  - rewrite (iter_array_enter cb d p pre w [] post s Hw Hf).
    + rewrite wf_arr in Hwa. nbool. cbn [map join app].
      destruct (Skips_ws (text d) _ _ _ _ (iter_arr_scan cb (text d) (S (length (d_pre d ++ pre))) s) 0 w H
                  ((d_pre d ++ pre) ++ [91]) (93 :: post ++ d_post d) 1%nat tt) as [_ [e' Es]].
      { rewrite Ht, render_arr. same_text. }
      { apply nobs_snoc. discriminate. }
      { lia. }
      rewrite length_snoc in Es. rewrite Es. cbn -[Nat.eqb cleanValue slice]. cbn [Nat.eqb].
      rewrite (slice_app_eq _ ((d_pre d ++ pre) ++ [91]) w (93 :: post ++ d_post d));
        [|rewrite Ht, render_arr; same_text|len|len].
      cbn [ibind].
      rewrite (clean_value_ws w H). reflexivity.
    + destruct (Nat.le_gt_cases (length (text d)) 2) as [Hle|]; [|assumption]. exfalso. apply E. clear E.
      rewrite Ht in Hle |- *. rewrite render_arr in *. cbn [map join app] in *.
      rewrite app_length in Hle. cbn [length] in Hle. rewrite !app_length in Hle. cbn [length] in Hle.
      destruct (d_pre d); [|cbn in Hle; lia]. destruct pre; [|cbn in Hle; lia].
      destruct w; [|cbn in Hle; lia]. destruct post; [|cbn in Hle; lia]. destruct (d_post d); [|cbn in Hle; lia].
      reflexivity.
Qed.
