(** [core] on paths that do not resolve. *)
From Verif Require Import GoStd Json Core Skip Focus CoreProofs.

Local Open Scope N_scope.

(** ** Steps into an array that fail *)

Lemma path_mid_len (q : list bytes) x rest : (length q < length (q ++ x :: rest))%nat.
Proof. rewrite app_length. cbn [length]. lia. Qed.

Theorem core_index_expected d q x rest w els pre post js :
  wf_doc d = true -> focus (d_val d) q pre (JArr w els) post -> atoi x = None ->
  core (text d) js (q ++ x :: rest) = Err EIndexExpected.
Proof.
  intros Hw Hf Hx. destruct (core_reach d q x rest pre _ post Hw Hf eq_refl) as (r & [Hj Hr] & Hcore).
  rewrite Hcore, Hr, OUT_arr by (try reflexivity; apply path_mid_len).
  unfold arr_step. cbn [cur]. rewrite nth_app_at, Hx. reflexivity.
Qed.

Theorem core_index_range d q x rest w els pre post js z :
  wf_doc d = true -> focus (d_val d) q pre (JArr w els) post ->
  atoi x = Some z -> z <> 0%Z -> nth_z els z = None ->
  core (text d) js (q ++ x :: rest) = Err EIndexOutOfRange.
Proof.
  intros Hw Hf Hx Hz Hn. destruct (core_reach d q x rest pre _ post Hw Hf eq_refl) as (r & [Hj Hr] & Hcore).
  rewrite Hcore, Hr, OUT_arr by (try reflexivity; apply path_mid_len).
  unfold arr_step. cbn [cur offset]. rewrite nth_app_at, Hx.
  replace (z =? 0)%Z with false by (symmetry; apply Z.eqb_neq; exact Hz).
  rewrite Hj at 2. rewrite skipn_length_app.
  assert (Hwc : wf (JArr w els) = true).
  { eapply focus_wf; [exact Hf|]. unfold wf_doc in Hw. nbool. assumption. }
  rewrite wf_arr in Hwc. nbool.
  rewrite arr_missing; [reflexivity|assumption|assumption|exact Hj|exact Hz|exact Hn].
Qed.

(** Index 0 of an empty array. *)
Theorem core_empty_array d q x rest w pre post :
  wf_doc d = true -> focus (d_val d) q pre (JArr w []) post -> atoi x = Some 0%Z ->
  core (text d) false (q ++ x :: rest) = Err (match rest with [] => EEmptyArray | _ => EIndexOutOfRange end).
Proof.
  intros Hw Hf Hx. destruct (core_reach d q x rest pre _ post Hw Hf eq_refl) as (r & [Hj Hr] & Hcore).
  rewrite Hcore, Hr, OUT_arr by (try reflexivity; apply path_mid_len).
  unfold arr_step. cbn [cur offset brace keyst]. rewrite nth_app_at, Hx. cbn [Z.eqb].
  assert (Hwc : wf (JArr w []) = true).
  { eapply focus_wf; [exact Hf|]. unfold wf_doc in Hw. nbool. assumption. }
  rewrite wf_arr in Hwc. nbool.
  assert (Hj2 : text d = ((d_pre d ++ pre) ++ [91]) ++ w ++ 93 :: post ++ d_post d).
  { rewrite Hj, render_arr. cbn [map join]. same_text. }
  assert (Hs : skipn (S (length (d_pre d ++ pre))) (text d) = w ++ 93 :: post ++ d_post d).
  { rewrite Hj2. apply skipn_app_eq. rewrite length_snoc. reflexivity. }
  rewrite Hs, arr0_ws by (try assumption; reflexivity).
  change (is_open 93) with false. cbv iota.
  rewrite app_length.
  destruct rest as [|y rest]; cbn [length].
  - replace (S (length q) =? length q + 1)%nat with true by (symmetry; apply Nat.eqb_eq; lia).
    cbn [bind]. rewrite OUT_end by (rewrite app_length; cbn [length]; lia). cbn [bind offset keyst].
    replace (S (length (d_pre d ++ pre)) =? 0)%nat with false by reflexivity.
    rewrite Hs, skip_space_ws by (try assumption; reflexivity). cbn [bind].
    unfold value_end.
    assert (Hpos : (S (length (d_pre d ++ pre)) + length w)%nat = length (((d_pre d ++ pre) ++ [91]) ++ w)) by len.
    rewrite Hpos.
    assert (Hj3 : text d = (((d_pre d ++ pre) ++ [91]) ++ w) ++ 93 :: post ++ d_post d).
    { rewrite Hj2. same_text. }
    rewrite (at_app_eq (text d) (((d_pre d ++ pre) ++ [91]) ++ w) 93 (post ++ d_post d) _ Hj3 eq_refl).
    cbn [bind]. change (is_open 93) with false. change (93 =? 34) with false. cbv iota.
    rewrite Hj3 at 1. rewrite skipn_length_app. cbn [token_loop].
    change (space 93 || (93 =? 44) || (93 =? 93) || (93 =? 125)) with true. cbv iota.
    rewrite Nat.eqb_refl. reflexivity.
  - replace (S (length q) =? length q + S (S (length rest)))%nat with false
      by (symmetry; apply Nat.eqb_neq; lia).
    reflexivity.
Qed.

(** A further step below an array element that is not a container. *)
Theorem core_below_element d q x y rest w l1 e l2 pre post js :
  wf_doc d = true -> focus (d_val d) q pre (JArr w (l1 ++ e :: l2)) post ->
  atoi x = Some (Z.of_nat (length l1)) -> container (e_val e) = false ->
  core (text d) js (q ++ x :: y :: rest) = Err EIndexOutOfRange.
Proof.
  intros Hw Hf Hx Hc.
  destruct (core_reach d q x (y :: rest) pre _ post Hw Hf eq_refl) as (r & [Hj Hr] & Hcore).
  rewrite Hcore, Hr, OUT_arr by (try reflexivity; apply path_mid_len).
  set (P := d_pre d ++ pre) in *. set (Q := post ++ d_post d) in *.
  assert (Hwc : wf (JArr w (l1 ++ e :: l2)) = true).
  { eapply focus_wf; [exact Hf|]. unfold wf_doc in Hw. nbool. assumption. }
  rewrite wf_arr, forallb_app in Hwc. cbn [forallb] in Hwc. nbool.
  assert (Hj' : text d = (P ++ arr_pre w l1 e) ++ render (e_val e) ++ arr_post e l2 ++ Q).
  { rewrite Hj, render_arr_split. same_text. }
  unfold arr_step. cbn [cur offset keyst]. rewrite nth_app_at, Hx.
  replace (S (length q) =? length (q ++ x :: y :: rest))%nat with false
    by (symmetry; apply Nat.eqb_neq; rewrite app_length; cbn [length]; lia).
  assert (Hoke := H1). unfold elem_ok in H1. nbool.
  destruct (render_cons _ H4) as (c & rr & Er & Hcw).
  assert (Ho : is_open c = false).
  { destruct (e_val e) as [s|s|w' els|w' ms]; try discriminate Hc; cbn [render] in Er.
    - cbn [wf] in H4. apply scalar_ok_inv in H4. destruct H4 as [_ Hs]. subst s.
      inversion Hs as [|? ? Ht _]; subst. apply plain_not_open. apply token_plain in Ht. tauto.
    - injection Er as <- <-. reflexivity. }
  destruct l1 as [|x0 l1'] using rev_ind.
  - cbn [length Z.of_nat Z.eqb].
    assert (Hs : skipn (S (length P)) (text d) = (w ++ e_pre e) ++ c :: rr ++ arr_post e l2 ++ Q).
    { rewrite Hj'. replace ((P ++ arr_pre w [] e) ++ render (e_val e) ++ arr_post e l2 ++ Q)
        with ((P ++ [91]) ++ (w ++ e_pre e) ++ render (e_val e) ++ arr_post e l2 ++ Q)
        by (unfold arr_pre; cbn [map]; change (jpre []) with (@nil N); same_text).
      rewrite skipn_app_eq by (rewrite length_snoc; reflexivity). rewrite Er at 1. same_text. }
    rewrite Hs. rewrite arr0_ws.
    + rewrite Ho. reflexivity.
    + rewrite ws_ok_app. apply andb_true_iff. split; assumption.
    + exact Hcw.
  - clear IHl1'.
    replace (Z.of_nat (length (l1' ++ [x0])) =? 0)%Z with false.
    2:{ symmetry. apply Z.eqb_neq. rewrite app_length. cbn [length]. lia. }
    set (T := Z.of_nat (length (l1' ++ [x0]))) in *.
    assert (Hs : skipn (length P) (text d) =
      91 :: w ++ jpre (map elem_text (l1' ++ [x0])) ++ e_pre e ++ render (e_val e) ++ arr_post e l2 ++ Q).
    { rewrite Hj'. unfold arr_pre. rewrite <- app_assoc. rewrite skipn_length_app. same_text. }
    rewrite Hs. cbn [arr_loop].
    change (91 =? 34) with false. change (91 =? 44) with false.
    rewrite andb_false_r. change (is_open 91) with true. cbv iota.
    destruct (Skips_ws _ _ _ _ _ (arr_scan (text d) false T 0) 0 w H (P ++ [91])
                (jpre (map elem_text (l1' ++ [x0])) ++ e_pre e ++ render (e_val e) ++ arr_post e l2 ++ Q)
                1%nat tt) as [Hn1 [[] E1]].
    { rewrite Hj'. unfold arr_pre. same_text. }
    { apply nobs_snoc. discriminate. }
    { lia. }
    rewrite length_snoc in E1. rewrite E1. clear E1.
    unfold T. rewrite arr_found; [|assumption|assumption| |assumption].
    2:{ rewrite Hj'. unfold arr_pre. same_text. }
    rewrite Er. rewrite Ho. reflexivity.
Qed.

(** ** Keys that are absent *)

(** The member list has been passed and no key matched. *)
Lemma absent_to_last json path r k pre w l m post :
  wf (JObj w (l ++ [m])) = true -> (k < length path)%nat ->
  nokey (nth k path []) (l ++ [m]) ->
  AtC json path r k pre (JObj w (l ++ [m])) post ->
  exists o br, br <> 91 /\
  let p := pre ++ 123 :: w ++ jpre (map mem_text l) in
  let st := CSt o br (nth k path []) None in
  let rest := mem_tail m ++ 125 :: post in
  json = (p ++ mem_head m) ++ 58 :: rest /\ nobs p /\
  r = bind match jump_loop json rest (S (length (p ++ mem_head m))) k (S k) false with
       | JComma j => key_loop json path rest (S (length (p ++ mem_head m))) (S j) k (S k) false false
           (length (p ++ m_pre m ++ [34])) (length (p ++ m_pre m ++ 34 :: m_key m)) st
       | JFail => Err (EKeyNotFound (cur st))
       | JEnd inq' => key_loop json path rest (S (length (p ++ mem_head m))) 0 k (S k) false inq'
           (length (p ++ m_pre m ++ [34])) (length (p ++ m_pre m ++ 34 :: m_key m)) st
       end (fun '(k', st') => OUT json path (S k') st').
Proof.
  intros Hw Hk Hnk [Hj (s & e & o & br & Hbr & Hmk & Hr)].
  rewrite wf_obj, forallb_app in Hw. cbn [forallb] in Hw. nbool. clear H2.
  apply Forall_app in Hnk. destruct Hnk as [Hnl Hnm]. inversion Hnm as [|? ? Hkm _]. clear Hnm.
  rename H1 into Hokm.
  exists o, br. split; [exact Hbr|]. cbv zeta.
  assert (Hj' : json =
    (((pre ++ [123]) ++ w ++ jpre (map mem_text l)) ++ mem_head m) ++ 58 :: mem_tail m ++ 125 :: post).
  { rewrite Hj, render_obj, map_app. cbn [map]. rewrite join_split, mem_text_split.
    change (jpost []) with (@nil N). same_text. }
  split; [rewrite Hj'; same_text|].
  assert (Hn : nobs ((pre ++ [123]) ++ w ++ jpre (map mem_text l))).
  { rewrite app_assoc. apply nobs_jpre. apply nobs_ws; [apply nobs_snoc; discriminate|assumption]. }
  split.
  { replace (pre ++ 123 :: w ++ jpre (map mem_text l)) with ((pre ++ [123]) ++ w ++ jpre (map mem_text l)) by same_text.
    exact Hn. }
  rewrite Hr. unfold RK. f_equal.
  rewrite map_app. cbn [map]. rewrite join_split, mem_text_split. change (jpost []) with (@nil N).
  transitivity (key_loop json path (w ++ jpre (map mem_text l) ++ mem_head m ++ 58 :: mem_tail m ++ 125 :: post)
      (length (pre ++ [123])) 0 k (S k) false false s e (CSt o br (nth k path []) None)).
  { rewrite length_snoc. f_equal. same_text. }
  rewrite key_ws by assumption. rewrite <- app_length.
  destruct (key_mismatches json path l ((pre ++ [123]) ++ w) (mem_head m ++ 58 :: mem_tail m ++ 125 :: post)
              k (CSt o br (nth k path []) None) s e) as (s1 & e1 & E1).
  { assumption. } { apply nobs_ws; [apply nobs_snoc; discriminate|assumption]. }
  { rewrite Hj'. same_text. } { exact Hnl. }
  rewrite E1.
  replace (((pre ++ [123]) ++ w) ++ jpre (map mem_text l)) with ((pre ++ [123]) ++ w ++ jpre (map mem_text l)) by same_text.
  rewrite key_head; [|exact Hokm|exact Hn|rewrite Hj'; same_text].
  rewrite key_colon by (rewrite Hj'; same_text). cbn [cur].
  apply bytes_eqb_neq in Hkm. rewrite Hkm.
  replace (pre ++ 123 :: w ++ jpre (map mem_text l)) with ((pre ++ [123]) ++ w ++ jpre (map mem_text l)) by same_text.
  reflexivity.
Qed.

Lemma jump_over_last json pre m post k :
  mem_ok m = true -> json = pre ++ mem_tail m ++ 125 :: post -> nobs pre ->
  jump_loop json (mem_tail m ++ 125 :: post) (length pre) k (S k) false =
  jump_loop json post (length (pre ++ mem_tail m ++ [125])) k k false.
Proof.
  intros Hok Hj Hn. unfold mem_ok in Hok. nbool.
  assert (Ht : Skips json _ unit (fun r j q l _ => jump_loop json r j k l q) (S k) 0 (mem_tail m)).
  { pose proof (jump_scan json k) as SC. unfold mem_tail.
    apply Skips_app; [eapply Skips_ws; eassumption|].
    apply Skips_app; [eapply Skips_val; eassumption|eapply Skips_ws; eassumption]. }
  destruct (Ht pre (125 :: post) (S k) tt Hj Hn ltac:(lia)) as [Hn2 [[] E]].
  rewrite E. cbn [jump_loop]. change (125 =? 34) with false. change (is_open 125) with false.
  change (is_close 125) with true. cbv iota. rewrite Nat.ltb_irrefl. cbn [pred]. f_equal. len.
Qed.

Lemma jump_ws json w r j k l : ws_ok w = true ->
  jump_loop json (w ++ r) j k l false = jump_loop json r (j + length w) k l false.
Proof.
  intro H. apply ws_ok_Forall in H. revert j. induction H as [|c w Hc Hw IH]; intro j.
  - cbn. rewrite Nat.add_0_r. reflexivity.
  - cbn [app jump_loop]. apply ws_plain in Hc. destruct Hc as [Hc _]. pose proof Hc as Hc'.
    apply plain_neq in Hc'. rewrite (plain_not_open _ Hc), (plain_not_close _ Hc), !eqb_false by tauto.
    rewrite IH. f_equal. cbn [length]. lia.
Qed.

(** The object is the last item of its parent: the next non-blank byte closes the parent. *)
Definition closes (post : bytes) : Prop :=
  exists w c r, post = w ++ c :: r /\ ws_ok w = true /\ is_close c = true.

Lemma jump_closes json post j k : closes post -> jump_loop json post j k k false = JFail.
Proof.
  intros (w & c & r & -> & Hw & Hc). rewrite jump_ws by exact Hw. cbn [jump_loop].
  apply close_cases in Hc.
  assert (E : (k <? S k)%nat = true) by (apply Nat.ltb_lt; lia).
  destruct Hc; subst c; cbn -[Nat.ltb]; rewrite E; reflexivity.
Qed.

(** Absent key, object last in its parent. *)
(** ** Searching where the key can never match *)

Section Never.
  Variables (json : bytes) (path : list bytes) (x : bytes).
  Variable Inv : nat -> nat -> Prop.
  Variable p0 : nat.
  Hypothesis Inv_start : forall s e i, Inv s e -> (p0 <= i)%nat -> nth_error json i = Some 34 -> Inv (S i) e.
  Hypothesis Inv_end : forall s e i, Inv s e -> nth_error json i = Some 34 -> Inv s i.
  Hypothesis Inv_no : forall s e, Inv s e -> key_match json x s e = false.

  Lemma key_never rest : forall pre resume k level inq s e st,
    json = pre ++ rest -> (p0 <= length pre)%nat -> Inv s e -> cur st = x ->
    key_loop json path rest (length pre) resume k level false inq s e st = Err (EKeyNotFound x).
  Proof.
    induction rest as [|c r IH]; intros pre resume k level inq s e st Hj Hp HI Hc; cbn [key_loop].
    - rewrite Hc. reflexivity.
    - assert (Hstep : forall resume k level inq s e st, Inv s e -> cur st = x ->
        key_loop json path r (S (length pre)) resume k level false inq s e st = Err (EKeyNotFound x)).
      { intros. rewrite <- (length_snoc pre c). apply IH; try assumption; [rewrite Hj; same_text|].
        rewrite length_snoc. lia. }
      assert (H34 : c = 34 -> nth_error json (length pre) = Some 34).
      { intros ->. eapply nth_error_app_eq; [exact Hj|reflexivity]. }
      destruct (length pre <? resume)%nat; [apply Hstep; assumption|].
      destruct (c =? 34) eqn:E34.
      { apply N.eqb_eq in E34. specialize (H34 E34).
        destruct (negb (level =? S k)%nat); [apply Hstep; assumption|].
        destruct (qscan json (length pre)) as [[]|].
        - destruct inq; cbn [negb]; apply Hstep; try assumption; [eapply Inv_end|eapply Inv_start]; eassumption.
        - apply Hstep; assumption.
        - destruct inq; apply Hstep; try assumption; [eapply Inv_start|eapply Inv_end]; eassumption. }
      destruct inq; [apply Hstep; assumption|].
      destruct ((level =? S k)%nat && (c =? 58)).
      { rewrite Hc, (Inv_no _ _ HI). destruct (jump_loop json r (S (length pre)) k level false);
          [apply Hstep; assumption|reflexivity|apply Hstep; assumption]. }
      destruct (c =? 91); [apply Hstep; assumption|].
      destruct (c =? 123); [apply Hstep; assumption|].
      destruct (is_close c); [|apply Hstep; assumption].
      destruct (level <? S k)%nat; [rewrite Hc; reflexivity|apply Hstep; assumption].
  Qed.
End Never.

(** [s] occurs as a contiguous part of [t]. *)
Definition occurs (s t : bytes) : Prop := exists a c, t = a ++ s ++ c.
Definition quoted (x : bytes) : bytes := 34 :: x ++ [34].

Lemma nth_error_skipn_split {A} (l : list A) i c : nth_error l i = Some c ->
  l = firstn i l ++ c :: skipn (S i) l.
Proof.
  revert i. induction l as [|y l IH]; intros [|i] H; cbn in H; try discriminate.
  - injection H as ->. reflexivity.
  - cbn [firstn skipn app]. f_equal. apply IH. exact H.
Qed.

Lemma key_match_occurs json x s e :
  key_match json x s e = true -> nth_error json e = Some 34 ->
  exists c, skipn s json = x ++ 34 :: c.
Proof.
  unfold key_match. intros H He. apply andb_true_iff in H. destruct H as [H1 H2].
  apply Nat.eqb_eq in H1. apply bytes_eqb_eq in H2.
  exists (skipn (S e) json).
  rewrite <- (firstn_skipn (length x) (skipn s json)). rewrite H2 at 1. f_equal.
  rewrite skipn_skipn', H1.
  apply nth_error_skipn_split in He. rewrite He at 1.
  rewrite skipn_app_eq; [reflexivity|]. rewrite firstn_length.
  assert (e < length json)%nat; [|lia]. apply nth_error_Some.
  rewrite (nth_error_app_eq json (firstn e json) 34 (skipn (S e) json) e).
  - discriminate.
  - exact He.
  - rewrite firstn_length. destruct (Nat.le_gt_cases (length json) e) as [Hle|]; [|lia].
    exfalso. rewrite skipn_all2 in He by lia. rewrite firstn_all2 in He by lia.
    apply (f_equal (@length N)) in He. rewrite app_length in He. cbn in He. lia.
Qed.

(** The key never matches: the marks stay in a suffix where the quoted key does not occur. *)
Lemma never_suffix json path x pre0 suf pre rest resume k level inq s e st :
  json = pre0 ++ suf -> ~ occurs (quoted x) suf ->
  (exists s', s = S s' /\ (length pre0 <= s')%nat /\ nth_error json s' = Some 34) ->
  (e = O \/ nth_error json e = Some 34) ->
  json = pre ++ rest -> (length pre0 <= length pre)%nat -> cur st = x ->
  key_loop json path rest (length pre) resume k level false inq s e st = Err (EKeyNotFound x).
Proof.
  intros Hj0 Hno Hs He Hj Hp Hc.
  apply key_never with (p0 := length pre0)
    (Inv := fun s e => (exists s', s = S s' /\ (length pre0 <= s')%nat /\ nth_error json s' = Some 34) /\
                       (e = O \/ nth_error json e = Some 34)); try assumption.
  - intros s1 e1 i [_ H2] Hi H34. split; [|assumption]. exists i. auto.
  - intros s1 e1 i [H1 _] H34. split; auto.
  - intros s1 e1 [(s' & -> & Hs1 & H34) He1]. destruct (key_match json x (S s') e1) eqn:E; [|reflexivity].
    exfalso. destruct He1 as [-> | He1].
    + unfold key_match in E. apply andb_true_iff in E. destruct E as [E _]. apply Nat.eqb_eq in E. lia.
    + destruct (key_match_occurs _ _ _ _ E He1) as [c Hc1]. apply Hno.
      assert (Hlt : (s' < length json)%nat) by (apply nth_error_Some; rewrite H34; discriminate).
      exists (firstn (s' - length pre0) suf), c.
      assert (Hsk : skipn s' json = 34 :: x ++ 34 :: c).
      { apply nth_error_skipn_split in H34. rewrite H34 at 1.
        rewrite skipn_app_eq by (rewrite firstn_length; lia). rewrite <- Hc1. reflexivity. }
      rewrite <- (firstn_skipn (s' - length pre0) suf) at 1. f_equal.
      rewrite Hj0 in Hsk. rewrite skipn_app in Hsk.
      rewrite skipn_all2 in Hsk by lia. cbn [app] in Hsk. rewrite Hsk. unfold quoted. same_text.
  - auto.
Qed.

(** Absent key, object with members: the quoted key does not occur from the last member on. *)
(** Absent key, any object: the quoted key occurs nowhere in the text. *)
Theorem core_absent_nowhere d q x rest w ms pre post js :
  wf_doc d = true -> focus (d_val d) q pre (JObj w ms) post ->
  ~ occurs (quoted x) (text d) -> x <> [] -> (forall t, text d <> x ++ 34 :: t) ->
  core (text d) js (q ++ x :: rest) = Err (EKeyNotFound x).
Proof.
  intros Hw Hf Hno Hne Hpre.
  destruct (core_reach d q x rest pre _ post Hw Hf eq_refl) as (r & Hat & Hcore).
  rewrite Hcore. clear Hcore.
  destruct Hat as [Hj (s & e & o & br & Hbr & Hmk & Hr)]. rewrite Hr. unfold RK. rewrite nth_app_at.
  rewrite <- (length_snoc (d_pre d ++ pre) 123).
  rewrite key_never with (x := x) (p0 := O) (Inv := marks (text d)); [reflexivity| | | | |lia| |].
  - intros s1 e1 i [_ H2] _ H34. split; [|assumption]. right. exists i. auto.
  - intros s1 e1 i [H1 _] H34. split; auto.
  - intros s1 e1 [Hs He]. destruct (key_match (text d) x s1 e1) eqn:E; [|reflexivity]. exfalso.
    destruct He as [-> | He].
    + unfold key_match in E. apply andb_true_iff in E. destruct E as [E _]. apply Nat.eqb_eq in E.
      destruct x; [congruence|]. cbn [length] in E. lia.
    + destruct (key_match_occurs _ _ _ _ E He) as [c Hc]. destruct Hs as [-> | (s' & -> & H34)].
      * eapply Hpre. exact Hc.
      * apply Hno. exists (firstn s' (text d)), c.
        assert (Hlt : (s' < length (text d))%nat) by (apply nth_error_Some; rewrite H34; discriminate).
        apply nth_error_skipn_split in H34. rewrite H34 at 1. rewrite Hc. unfold quoted. same_text.
  - rewrite Hj, render_obj. same_text.
  - exact Hmk.
  - reflexivity.
Qed.

(** ** Thin siblings *)

(** Containers with at most one item. *)
Definition thin (v : jv) : bool :=
  match v with
  | JArr _ (_ :: _ :: _) | JObj _ (_ :: _ :: _) => false
  | _ => true
  end.

(** [Jpass k l s]: from level [l] outside quotes the jump passes over [s] and is back at [l]. *)
Definition Jpass (json : bytes) (k l : nat) (s : bytes) : Prop :=
  forall pre post, json = pre ++ s ++ post -> nobs pre ->
    nobs (pre ++ s) /\
    jump_loop json (s ++ post) (length pre) k l false = jump_loop json post (length (pre ++ s)) k l false.

Lemma Jpass_app json k l s1 s2 : Jpass json k l s1 -> Jpass json k l s2 -> Jpass json k l (s1 ++ s2).
Proof.
  intros H1 H2 pre post Hj Hn. rewrite <- app_assoc in Hj |- *.
  destruct (H1 pre (s2 ++ post) Hj Hn) as [Hn1 E1].
  destruct (H2 (pre ++ s1) post ltac:(rewrite Hj; same_text) Hn1) as [Hn2 E2].
  rewrite <- app_assoc in Hn2, E2. split; [assumption|]. rewrite E1. exact E2.
Qed.

Lemma Jpass_nil json k l : Jpass json k l [].
Proof. intros pre post Hj Hn. rewrite app_nil_r. split; [assumption|reflexivity]. Qed.

Lemma Jpass_plain json k l s : Forall (fun c => plain c = true /\ c <> 92) s -> Jpass json k l s.
Proof.
  intros H pre post Hj Hn. split.
  { apply nobs_app; [assumption|]. eapply Forall_impl; [|exact H]. cbn. tauto. }
  clear Hj Hn. revert pre. induction H as [|c s [Hc _] Hs IH]; intro pre.
  - rewrite app_nil_r. reflexivity.
  - cbn [app jump_loop]. pose proof (plain_neq _ Hc) as Hc'.
    rewrite (plain_not_open _ Hc), (plain_not_close _ Hc), !eqb_false by tauto.
    rewrite <- (length_snoc pre c), IH, <- app_assoc. reflexivity.
Qed.

Lemma Jpass_ws json k l w : ws_ok w = true -> Jpass json k l w.
Proof.
  intro H. apply Jpass_plain. apply ws_ok_Forall in H. eapply Forall_impl; [|exact H].
  intros c Hc. apply ws_plain. exact Hc.
Qed.

Lemma Jpass_sep json k l c : c = 44 \/ c = 58 -> l <> S k \/ c = 58 -> Jpass json k l [c].
Proof.
  intros Hc Hl pre post Hj Hn. split; [apply nobs_snoc; destruct Hc; subst; discriminate|].
  rewrite length_snoc. cbn [app jump_loop].
  destruct Hc; subst c; [|reflexivity]. destruct Hl as [Hl|Hl]; [|discriminate].
  change (44 =? 34) with false. change (is_open 44) with false. change (is_close 44) with false.
  change (44 =? 44) with true. cbv iota. apply Nat.eqb_neq in Hl. rewrite Hl. reflexivity.
Qed.

Lemma Jpass_string json k l s : str_ok s = true -> Jpass json k l (34 :: s ++ [34]).
Proof.
  intros Hs pre post Hj Hn. split.
  { change (34 :: s ++ [34]) with ((34 :: s) ++ [34]). rewrite app_assoc. apply nobs_snoc. discriminate. }
  assert (Hj1 : json = pre ++ 34 :: s ++ 34 :: post) by (rewrite Hj; same_text).
  cbn [app jump_loop]. change (34 =? 34) with true. cbv iota.
  unfold toggle at 1. rewrite Hj1 at 2. rewrite (qscan_nobs pre _ Hn). cbn [negb].
  rewrite <- app_assoc. cbn [app].
  rewrite (str_skip json _ (fun r j => jump_loop json r j k l true)) with (pre := pre); [|..|exact Hs|exact Hj1].
  - cbn [jump_loop]. change (34 =? 34) with true. cbv iota.
    unfold toggle. rewrite Hj1 at 2.
    replace (pre ++ 34 :: s ++ 34 :: post) with ((pre ++ 34 :: s) ++ 34 :: post) by same_text.
    replace (qscan ((pre ++ 34 :: s) ++ 34 :: post) (length (pre ++ 34 :: s))) with (Some true).
    + cbn [negb]. f_equal. len.
    + symmetry. replace ((pre ++ 34 :: s) ++ 34 :: post) with (pre ++ 34 :: s ++ 34 :: post) by same_text.
      apply qscan_close. exact Hs.
  - intros pre' c r _ Hc. cbn [jump_loop]. rewrite eqb_false by assumption. reflexivity.
  - intros pre' r _ Hq. cbn [jump_loop]. change (34 =? 34) with true. cbv iota.
    unfold toggle. rewrite Hq. reflexivity.
Qed.

Lemma Jpass_skips json k l s : (S k <= l)%nat ->
  Skips json _ unit (fun r j q l _ => jump_loop json r j k l q) (S k) 0 s -> Jpass json k l s.
Proof.
  intros Hl H pre post Hj Hn. destruct (H pre post l tt Hj Hn ltac:(lia)) as [Hn2 [[] E]]. auto.
Qed.

Lemma Jpass_brace json k l o s c : is_open o = true -> is_close c = true -> (k <= l)%nat ->
  Jpass json k (S l) s -> Jpass json k l (o :: s ++ [c]).
Proof.
  intros Ho Hc Hl H pre post Hj Hn.
  assert (Hj1 : json = (pre ++ [o]) ++ s ++ c :: post) by (rewrite Hj; same_text).
  destruct (H (pre ++ [o]) (c :: post) Hj1) as [Hn1 E1].
  { apply nobs_snoc. apply open_cases in Ho. destruct Ho; subst; discriminate. }
  split.
  { change (o :: s ++ [c]) with ((o :: s) ++ [c]). rewrite app_assoc. apply nobs_snoc.
    apply close_cases in Hc. destruct Hc; subst; discriminate. }
  assert (E : jump_loop json ((o :: s ++ [c]) ++ post) (length pre) k l false =
              jump_loop json (s ++ c :: post) (S (length pre)) k (S l) false).
  { cbn [app jump_loop]. rewrite <- app_assoc. apply open_cases in Ho. destruct Ho; subst o; reflexivity. }
  rewrite E. rewrite length_snoc in E1. rewrite E1.
  cbn [jump_loop]. replace (S l <? S k)%nat with false by (symmetry; apply Nat.ltb_ge; lia).
  apply close_cases in Hc. destruct Hc; subst c; cbn; f_equal; len.
Qed.

Lemma Jpass_value1 json k l v : (S k <= l)%nat -> wf v = true -> Jpass json k l (render v).
Proof. intros Hl H. apply Jpass_skips; [assumption|]. apply Skips_val; [apply jump_scan|exact H]. Qed.

Lemma Jpass_thin json k v : wf v = true -> thin v = true -> Jpass json k k (render v).
Proof.
  intros Hw Ht. destruct v as [s|s|w els|w ms].
  - apply Jpass_plain. cbn [wf] in Hw. apply scalar_ok_inv in Hw. destruct Hw as [_ Hw].
    eapply Forall_impl; [|exact Hw]. cbn. intros c Hc. apply token_plain in Hc. tauto.
  - cbn [render]. apply Jpass_string. exact Hw.
  - rewrite wf_arr in Hw. nbool. rewrite render_arr, app_assoc. apply Jpass_brace; try reflexivity; try lia.
    apply Jpass_app; [apply Jpass_ws; assumption|].
    destruct els as [|e [|]]; try discriminate Ht; [apply Jpass_nil|].
    cbn [map join forallb] in *. nbool. unfold elem_ok, elem_text in *. nbool.
    apply Jpass_app; [apply Jpass_ws; assumption|].
    apply Jpass_app; [apply Jpass_value1; [lia|assumption]|apply Jpass_ws; assumption].
  - rewrite wf_obj in Hw. nbool. rewrite render_obj, app_assoc. apply Jpass_brace; try reflexivity; try lia.
    apply Jpass_app; [apply Jpass_ws; assumption|].
    destruct ms as [|m [|]]; try discriminate Ht; [apply Jpass_nil|].
    cbn [map join forallb] in *. nbool. unfold mem_ok, mem_text in *. nbool.
    apply Jpass_app; [apply Jpass_ws; assumption|].
    match goal with |- Jpass _ _ _ (34 :: ?k ++ 34 :: ?t) =>
        change (34 :: k ++ 34 :: t) with (34 :: k ++ [34] ++ t); rewrite app_assoc end.
    apply (Jpass_app _ _ _ (34 :: _)); [apply Jpass_string; assumption|].
    apply Jpass_app; [apply Jpass_ws; assumption|].
    apply (Jpass_app _ _ _ [58]); [apply Jpass_sep; right; reflexivity|].
    apply Jpass_app; [apply Jpass_ws; assumption|].
    apply Jpass_app; [apply Jpass_value1; [lia|assumption]|apply Jpass_ws; assumption].
Qed.

Lemma Forall_forallb {A} (f : A -> bool) l : forallb f l = true -> Forall (fun x => f x = true) l.
Proof. intro H. apply Forall_forall. apply forallb_forall. exact H. Qed.

(** ** The root object *)

(** No brace byte in any string or key. *)
Definition no_brace (s : bytes) : bool := forallb (fun c => negb (is_open c) && negb (is_close c)) s.
Fixpoint calm (v : jv) : bool :=
  match v with
  | JScalar _ => true
  | JString s => no_brace s
  | JArr _ els => forallb (fun e => match e with Elem _ v _ => calm v end) els
  | JObj _ ms => forallb (fun m => match m with Mem _ k _ _ v _ => no_brace k && calm v end) ms
  end.

Lemma calm_arr w els : calm (JArr w els) = forallb (fun e => calm (e_val e)) els.
Proof. cbn [calm]. induction els as [|[a v c] els IH]; cbn; [reflexivity|]. rewrite IH. reflexivity. Qed.
Lemma calm_obj w ms : calm (JObj w ms) = forallb (fun m => no_brace (m_key m) && calm (m_val m)) ms.
Proof. cbn [calm]. induction ms as [|[a k c d v e] ms IH]; cbn; [reflexivity|]. rewrite IH. reflexivity. Qed.

(** [Deep l s]: at level [l], deeper than the searched one, the key search passes over [s]. *)
Definition Deep json path k l (s : bytes) : Prop :=
  forall post i st_s st_e st,
    key_loop json path (s ++ post) i 0 k l false false st_s st_e st =
    key_loop json path post (i + length s) 0 k l false false st_s st_e st.

Lemma Deep_app json path k l s1 s2 : Deep json path k l s1 -> Deep json path k l s2 -> Deep json path k l (s1 ++ s2).
Proof.
  intros H1 H2 post i s e st. rewrite <- app_assoc, H1, H2, app_length. f_equal. lia.
Qed.

Lemma Deep_nil json path k l : Deep json path k l [].
Proof. intros post i s e st. cbn. rewrite Nat.add_0_r. reflexivity. Qed.

Lemma Deep_flat json path k l s : l <> S k -> no_brace s = true -> Deep json path k l s.
Proof.
  intros Hl Hs. unfold no_brace in Hs. apply Forall_forallb in Hs.
  induction Hs as [|c s Hc Hs IH]; [apply Deep_nil|].
  intros post i a e st. cbn [app key_loop]. change (i <? 0)%nat with false. cbv iota.
  apply Nat.eqb_neq in Hl. rewrite Hl. cbn [negb andb].
  assert (E : key_loop json path (s ++ post) (S i) 0 k l false false a e st =
              key_loop json path post (i + length (c :: s)) 0 k l false false a e st).
  { rewrite IH. cbn [length]. f_equal. lia. }
  nbool. unfold is_open, is_close in *.
  destruct (c =? 34); [exact E|]. destruct (c =? 91); [discriminate|]. destruct (c =? 123); [discriminate|].
  destruct (c =? 93); [discriminate|]. destruct (c =? 125); [discriminate|]. exact E.
Qed.

Lemma Deep_brace json path k l o s c : is_open o = true -> is_close c = true -> (S k <= l)%nat ->
  Deep json path k (S l) s -> Deep json path k l (o :: s ++ [c]).
Proof.
  intros Ho Hc Hl H post i a e st.
  assert (E1 : key_loop json path ((o :: s ++ [c]) ++ post) i 0 k l false false a e st =
               key_loop json path (s ++ c :: post) (S i) 0 k (S l) false false a e st).
  { cbn [app key_loop]. change (i <? 0)%nat with false. rewrite <- app_assoc.
    apply open_cases in Ho. destruct Ho; subst o; cbn -[Nat.eqb]; rewrite andb_false_r; reflexivity. }
  rewrite E1, H. cbn [key_loop]. match goal with |- context [(?z <? 0)%nat] => change (z <? 0)%nat with false end.
  assert (E2 : (S l <? S k)%nat = false) by (apply Nat.ltb_ge; lia).
  apply close_cases in Hc. destruct Hc; subst c; cbn -[Nat.eqb Nat.ltb]; rewrite andb_false_r, E2;
    cbn [pred]; f_equal; cbn [length]; rewrite app_length; cbn [length]; lia.
Qed.

Lemma no_brace_app a c : no_brace (a ++ c) = no_brace a && no_brace c.
Proof. apply forallb_app. Qed.
Lemma no_brace_ws w : ws_ok w = true -> no_brace w = true.
Proof.
  intro H. apply ws_ok_Forall in H. unfold no_brace. apply forallb_forall. rewrite Forall_forall in H.
  intros c Hc. apply H in Hc. apply ws_plain in Hc. destruct Hc as [Hc _].
  rewrite (plain_not_open _ Hc), (plain_not_close _ Hc). reflexivity.
Qed.
Lemma no_brace_scalar s : scalar_ok s = true -> no_brace s = true.
Proof.
  intro H. apply scalar_ok_inv in H. destruct H as [_ H]. unfold no_brace. apply forallb_forall.
  rewrite Forall_forall in H. intros c Hc. apply H in Hc. apply token_plain in Hc. destruct Hc as [Hc _].
  rewrite (plain_not_open _ Hc), (plain_not_close _ Hc). reflexivity.
Qed.

Lemma Deep_ws json path k l w : l <> S k -> ws_ok w = true -> Deep json path k l w.
Proof. intros. apply Deep_flat; [assumption|]. apply no_brace_ws. assumption. Qed.

Lemma Deep_join json path k l xs : l <> S k -> Forall (Deep json path k l) xs -> Deep json path k l (join xs).
Proof.
  intros Hl H. induction H as [|x xs Hx Hxs IH]; [apply Deep_nil|].
  cbn [join]. destruct xs; [exact Hx|]. apply Deep_app; [exact Hx|].
  apply (Deep_app _ _ _ _ [44]); [apply Deep_flat; [assumption|reflexivity]|exact IH].
Qed.

Lemma Deep_value json path k v : forall l, (S k < l)%nat -> wf v = true -> calm v = true ->
  Deep json path k l (render v).
Proof.
  induction v as [s|s|w els IH|w ms IH] using jv_ind'; intros l Hl Hw Hc.
  - apply Deep_flat; [lia|]. apply no_brace_scalar. exact Hw.
  - cbn [render]. apply Deep_flat; [lia|]. change (34 :: s ++ [34]) with ([34] ++ s ++ [34]).
    rewrite !no_brace_app. cbn [calm] in Hc. rewrite Hc. reflexivity.
  - rewrite wf_arr in Hw. rewrite calm_arr in Hc. nbool. rewrite render_arr, app_assoc.
    apply Deep_brace; try reflexivity; try lia.
    apply Deep_app; [apply Deep_ws; [lia|assumption]|]. apply Deep_join; [lia|].
    apply Forall_map. rewrite Forall_forall in IH |- *. intros e Hin.
    rewrite forallb_forall in H0, Hc. specialize (H0 e Hin). specialize (Hc e Hin). specialize (IH e Hin).
    unfold elem_ok, elem_text in *. nbool.
    apply Deep_app; [apply Deep_ws; [lia|assumption]|].
    apply Deep_app; [apply IH; [lia|assumption|assumption]|apply Deep_ws; [lia|assumption]].
  - rewrite wf_obj in Hw. rewrite calm_obj in Hc. nbool. rewrite render_obj, app_assoc.
    apply Deep_brace; try reflexivity; try lia.
    apply Deep_app; [apply Deep_ws; [lia|assumption]|]. apply Deep_join; [lia|].
    apply Forall_map. rewrite Forall_forall in IH |- *. intros m Hin.
    rewrite forallb_forall in H0, Hc. specialize (H0 m Hin). specialize (Hc m Hin). specialize (IH m Hin).
    cbv beta in Hc. unfold mem_ok, mem_text in *. nbool.
    apply Deep_app; [apply Deep_ws; [lia|assumption]|].
    change (34 :: m_key m ++ 34 :: m_mid m ++ 58 :: m_mid2 m ++ render (m_val m) ++ m_post m)
      with ([34] ++ m_key m ++ [34] ++ m_mid m ++ [58] ++ m_mid2 m ++ render (m_val m) ++ m_post m).
    apply Deep_app; [apply Deep_flat; [lia|reflexivity]|].
    apply Deep_app; [apply Deep_flat; [lia|assumption]|].
    apply Deep_app; [apply Deep_flat; [lia|reflexivity]|].
    apply Deep_app; [apply Deep_ws; [lia|assumption]|].
    apply Deep_app; [apply Deep_flat; [lia|reflexivity]|].
    apply Deep_app; [apply Deep_ws; [lia|assumption]|].
    apply Deep_app; [apply IH; [lia|assumption|assumption]|apply Deep_ws; [lia|assumption]].
Qed.

(** A last value over which a resumed key search passes. *)
Definition tame (v : jv) : bool := match v with JScalar _ | JString _ => true | _ => calm v end.

Lemma key_tame json path k v pre post s e st :
  wf v = true -> tame v = true -> json = pre ++ render v ++ post -> nobs pre ->
  exists s' e', key_loop json path (render v ++ post) (length pre) 0 k (S k) false false s e st =
                key_loop json path post (length (pre ++ render v)) 0 k (S k) false false s' e' st.
Proof.
  intros Hw Ht Hj Hn. destruct v as [t|t|w els|w ms].
  - exists s, e. cbn [render]. cbn [wf] in Hw. apply scalar_ok_inv in Hw. destruct Hw as [_ Hw].
    rewrite key_plain; [rewrite app_length; reflexivity|].
    eapply Forall_impl; [|exact Hw]. cbn. intros c Hc. apply token_plain in Hc. apply plain_kplain. tauto.
  - cbn [render]. eexists. eexists.
    replace ((34 :: t ++ [34]) ++ post) with (34 :: t ++ 34 :: post) by same_text.
    rewrite key_string; [reflexivity|exact Hw|exact Hn|rewrite Hj; cbn [render]; same_text].
  - exists s, e. rewrite app_length. rewrite wf_arr in Hw. cbn [tame] in Ht. rewrite calm_arr in Ht. nbool.
    rewrite render_arr, app_assoc.
    apply Deep_brace; try reflexivity; try lia.
    apply Deep_app; [apply Deep_ws; [lia|assumption]|]. apply Deep_join; [lia|].
    apply Forall_map. rewrite Forall_forall. intros e0 Hin.
    rewrite forallb_forall in H0, Ht. specialize (H0 e0 Hin). specialize (Ht e0 Hin).
    unfold elem_ok, elem_text in *. nbool.
    apply Deep_app; [apply Deep_ws; [lia|assumption]|].
    apply Deep_app; [apply Deep_value; [lia|assumption|assumption]|apply Deep_ws; [lia|assumption]].
  - exists s, e. rewrite app_length. rewrite wf_obj in Hw. cbn [tame] in Ht. rewrite calm_obj in Ht. nbool.
    rewrite render_obj, app_assoc.
    apply Deep_brace; try reflexivity; try lia.
    apply Deep_app; [apply Deep_ws; [lia|assumption]|]. apply Deep_join; [lia|].
    apply Forall_map. rewrite Forall_forall. intros m Hin.
    rewrite forallb_forall in H0, Ht. specialize (H0 m Hin). specialize (Ht m Hin).
    cbv beta in Ht. unfold mem_ok, mem_text in *. nbool.
    apply Deep_app; [apply Deep_ws; [lia|assumption]|].
    change (34 :: m_key m ++ 34 :: m_mid m ++ 58 :: m_mid2 m ++ render (m_val m) ++ m_post m)
      with ([34] ++ m_key m ++ [34] ++ m_mid m ++ [58] ++ m_mid2 m ++ render (m_val m) ++ m_post m).
    apply Deep_app; [apply Deep_flat; [lia|reflexivity]|].
    apply Deep_app; [apply Deep_flat; [lia|assumption]|].
    apply Deep_app; [apply Deep_flat; [lia|reflexivity]|].
    apply Deep_app; [apply Deep_ws; [lia|assumption]|].
    apply Deep_app; [apply Deep_flat; [lia|reflexivity]|].
    apply Deep_app; [apply Deep_ws; [lia|assumption]|].
    apply Deep_app; [apply Deep_value; [lia|assumption|assumption]|apply Deep_ws; [lia|assumption]].
Qed.

(** Absent key of the root object. *)
Theorem core_absent_root d x rest w ms js :
  wf_doc d = true -> d_val d = JObj w ms -> nokey x ms ->
  (forall l m, ms = l ++ [m] -> tame (m_val m) = true) ->
  core (text d) js (x :: rest) = Err (EKeyNotFound x).
Proof.
  intros Hw Hv Hnk Ht.
  assert (Hf : focus (d_val d) [] [] (JObj w ms) []) by (rewrite Hv; constructor).
  destruct (core_reach d [] x rest [] _ [] Hw Hf eq_refl) as (r & Hat & Hcore).
  cbn [app] in Hcore, Hat. rewrite Hcore. clear Hcore.
  assert (Hwc : wf (JObj w ms) = true).
  { unfold wf_doc in Hw. nbool. rewrite <- Hv. assumption. }
  assert (Hpost : ws_ok (d_post d) = true) by (unfold wf_doc in Hw; nbool; assumption).
  rewrite app_nil_r in Hat. cbn [length] in Hat.
  assert (Hend : forall i s e o br, key_loop (text d) (x :: rest) (125 :: d_post d) i 0 0 1 false false s e (CSt o br x None)
                   = Err (EKeyNotFound x)).
  { intros. cbn [key_loop]. change (i <? 0)%nat with false. change (125 =? 34) with false. cbv iota.
    change (125 =? 58) with false. rewrite andb_false_r. cbn -[key_loop].
    rewrite <- (app_nil_r (d_post d)), key_ws by assumption. reflexivity. }
  destruct ms as [|m l] using rev_ind.
  - destruct Hat as [Hj (s & e & o & br & Hbr & Hmk & Hr)]. rewrite Hr. unfold RK.
    rewrite wf_obj in Hwc. nbool. cbn [map join app nth].
    rewrite key_ws by assumption. rewrite Hend. reflexivity.
  - clear IHl. specialize (Ht l m eq_refl).
    destruct (absent_to_last (text d) (x :: rest) r 0 (d_pre d) w l m (d_post d))
      as (o & br & Hbr & Hj & Hn & Hr).
    { exact Hwc. } { cbn; lia. } { exact Hnk. } { exact Hat. }
    rewrite Hr. clear Hr. cbn [cur nth].
    set (p := d_pre d ++ 123 :: w ++ jpre (map mem_text l)) in *.
    rewrite <- (length_snoc (p ++ mem_head m) 58).
    rewrite wf_obj, forallb_app in Hwc. cbn [forallb] in Hwc. nbool. clear H2.
    rewrite jump_over_last.
    + rewrite <- (app_nil_r (d_post d)) at 1. rewrite jump_ws by exact Hpost. cbn [jump_loop].
      assert (Hokm := H1). unfold mem_ok in H1. nbool.
      replace (mem_tail m ++ 125 :: d_post d) with (m_mid2 m ++ render (m_val m) ++ m_post m ++ 125 :: d_post d)
        by (unfold mem_tail; same_text).
      rewrite key_ws by assumption. rewrite <- app_length.
      assert (Hj2 : text d = ((((p ++ mem_head m) ++ [58]) ++ m_mid2 m) ++ render (m_val m) ++ m_post m ++ 125 :: d_post d)).
      { rewrite Hj. unfold mem_tail. same_text. }
      destruct (key_tame (text d) (x :: rest) 0 (m_val m) (((p ++ mem_head m) ++ [58]) ++ m_mid2 m)
                  (m_post m ++ 125 :: d_post d) (length (p ++ m_pre m ++ [34])) (length (p ++ m_pre m ++ 34 :: m_key m))
                  (CSt o br x None)) as (s' & e' & E).
      { assumption. } { assumption. } { exact Hj2. }
      { apply nobs_ws; [apply nobs_snoc; discriminate|assumption]. }
      rewrite E. rewrite key_ws by assumption. rewrite Hend. reflexivity.
    + assumption.
    + rewrite Hj. same_text.
    + apply nobs_snoc. discriminate.
Qed.

(** ** Paths below a value that is not a container *)

Definition no_open (s : bytes) : bool := forallb (fun c => negb (is_open c)) s.

Lemma key_found_no_open json path rest : forall i k level s e st,
  no_open rest = true -> key_match json (cur st) s e = true -> (S k =? length path)%nat = false ->
  (exists o', key_loop json path rest i 0 k level true false s e st =
                Ok (k, CSt o' (brace st) (cur st) (keyst st)) /\ (o' = offset st \/ (i < o')%nat)) \/
  key_loop json path rest i 0 k level true false s e st = Err (EKeyNotFound (cur st)).
Proof.
  induction rest as [|c r IH]; intros i k level s e st Ho Hm Hk; cbn [key_loop].
  - left. exists (offset st). split; [destruct st; reflexivity|auto].
  - unfold no_open in Ho. cbn [forallb] in Ho. nbool.
    change (i <? 0)%nat with false. cbv iota.
    assert (Hstep : forall level st', brace st' = brace st -> cur st' = cur st -> keyst st' = keyst st ->
      (offset st' = offset st \/ offset st' = S i) ->
      (exists o', key_loop json path r (S i) 0 k level true false s e st' =
                Ok (k, CSt o' (brace st) (cur st) (keyst st)) /\ (o' = offset st \/ (i < o')%nat)) \/
      key_loop json path r (S i) 0 k level true false s e st' = Err (EKeyNotFound (cur st))).
    { intros level' st' H1 H2 H3 H4. rewrite <- H1, <- H2, <- H3.
      destruct (IH (S i) k level' s e st') as [(o' & E & Ho')|E]; [assumption|congruence|assumption| |].
      - left. exists o'. split; [exact E|]. destruct Ho' as [Ho2|]; [rewrite Ho2|right; lia].
        destruct H4 as [H4|H4]; rewrite H4; [auto|right; lia].
      - right. exact E. }
    destruct (c =? 34); [apply Hstep; auto|].
    destruct ((level =? S k)%nat && (c =? 58)).
    { rewrite Hm, Hk. apply Hstep; cbn [offset]; auto. }
    unfold is_open in H. destruct (c =? 91); [discriminate|]. destruct (c =? 123); [discriminate|].
    destruct (is_close c); [|apply Hstep; auto].
    destruct (level <? S k)%nat; [right; reflexivity|apply Hstep; auto].
Qed.

Lemma key_no_open json path rest : forall i k level s e st,
  no_open rest = true -> (level <= k)%nat ->
  key_loop json path rest i 0 k level false false s e st = Err (EKeyNotFound (cur st)).
Proof.
  induction rest as [|c r IH]; intros i k level s e st Ho Hl; cbn [key_loop]; [reflexivity|].
  unfold no_open in Ho. cbn [forallb] in Ho. nbool.
  change (i <? 0)%nat with false. cbv iota.
  replace (level =? S k)%nat with false by (symmetry; apply Nat.eqb_neq; lia). cbn [negb andb].
  unfold is_open in H. destruct (c =? 34); [apply IH; assumption|].
  destruct (c =? 91); [discriminate|]. destruct (c =? 123); [discriminate|].
  destruct (is_close c); [|apply IH; assumption].
  destruct (level <? S k)%nat eqn:E; [reflexivity|]. apply IH; [assumption|lia].
Qed.

Lemma no_open_skipn s n : no_open s = true -> no_open (skipn n s) = true.
Proof.
  unfold no_open. rewrite !forallb_forall. intros H c Hc. apply H.
  rewrite <- (firstn_skipn n s). apply in_or_app. right. exact Hc.
Qed.

(** A further step below a member, when no brace opens after its colon. *)
Theorem core_below_member d q y rest w l1 m l2 pre post js :
  wf_doc d = true -> focus (d_val d) q pre (JObj w (l1 ++ m :: l2)) post ->
  nokey (m_key m) l1 -> no_open (render (m_val m) ++ obj_post m l2 ++ post ++ d_post d) = true ->
  core (text d) js (q ++ m_key m :: y :: rest) = Err (EKeyNotFound (m_key m)).
Proof.
  intros Hw Hf Hnk Hno.
  destruct (core_reach d q (m_key m) (y :: rest) pre _ post Hw Hf eq_refl) as (r & Hat & Hcore).
  rewrite Hcore. clear Hcore.
  assert (Hwc : wf (JObj w (l1 ++ m :: l2)) = true).
  { eapply focus_wf; [exact Hf|]. unfold wf_doc in Hw. nbool. assumption. }
  destruct Hat as [Hj (s & e & o & br & Hbr & Hmk & Hr)].
  rewrite wf_obj, forallb_app in Hwc. cbn [forallb] in Hwc. nbool.
  set (path := q ++ m_key m :: y :: rest) in *. set (k := length q) in *.
  assert (Hx : nth k path [] = m_key m) by apply nth_app_at.
  assert (Hlen : (S k < length path)%nat) by (unfold path, k; rewrite app_length; cbn [length]; lia).
  set (P := d_pre d ++ pre) in *. set (Q := post ++ d_post d) in *.
  assert (Hj' : text d = (P ++ obj_pre w l1 m) ++ render (m_val m) ++ obj_post m l2 ++ Q).
  { rewrite Hj, render_obj_split. same_text. }
  unshelve epose proof (key_found (text d) path (P ++ [123]) w l1 m (mem_tail m ++ jpost (map mem_text l2) ++ 125 :: Q)
              k (CSt o br (nth k path []) None) s e _ _ _ _ _ _ _) as E1.
  { assumption. } { assumption. } { assumption. } { apply nobs_snoc. discriminate. }
  { rewrite Hj'. unfold obj_pre, obj_kpre, obj_mid, obj_post, mem_head, mem_tail. same_text. }
  { assumption. } { cbn [cur]. exact Hx. }
  cbv zeta in E1. rewrite length_snoc in E1.
  replace (S k =? length path)%nat with false in E1 by (symmetry; apply Nat.eqb_neq; lia).
  cbn [cur brace keyst] in E1. rewrite Hx in E1, Hr.
  assert (Hr2 : r = RK (text d) path (w ++ jpre (map mem_text l1) ++ mem_head m ++ 58 :: mem_tail m ++ jpost (map mem_text l2) ++ 125 :: Q)
       (S (length P)) k (S k) false false s e (CSt o br (m_key m) None)).
  { rewrite Hr. f_equal. rewrite map_app. cbn [map]. rewrite join_split, mem_text_split. same_text. }
  unfold RK in Hr2. rewrite E1 in Hr2. clear E1 Hr.
  set (p := (P ++ [123]) ++ w ++ jpre (map mem_text l1)) in *.
  assert (Hjp : text d = (p ++ mem_head m) ++ 58 :: mem_tail m ++ jpost (map mem_text l2) ++ 125 :: Q).
  { rewrite Hj'. unfold p, obj_pre, obj_kpre, obj_mid, obj_post, mem_head, mem_tail. same_text. }
  assert (Hm : key_match (text d) (m_key m) (length (p ++ m_pre m ++ [34])) (length (p ++ m_pre m ++ 34 :: m_key m)) = true).
  { unfold key_match. apply andb_true_iff. split; [apply Nat.eqb_eq; len|].
    rewrite Hjp. unfold mem_head.
    replace ((p ++ m_pre m ++ 34 :: m_key m ++ 34 :: m_mid m) ++ 58 :: mem_tail m ++ jpost (map mem_text l2) ++ 125 :: Q)
      with ((p ++ m_pre m ++ [34]) ++ m_key m ++ 34 :: m_mid m ++ 58 :: mem_tail m ++ jpost (map mem_text l2) ++ 125 :: Q) by same_text.
    rewrite skipn_length_app, firstn_length_app. apply bytes_eqb_refl. }
  assert (Hno' : no_open (mem_tail m ++ jpost (map mem_text l2) ++ 125 :: Q) = true).
  { unfold mem_tail. unfold obj_post in Hno. unfold no_open in *. rewrite !forallb_app in *. cbn [forallb] in *. nbool.
    unfold mem_ok in H1. nbool.
    assert (Hmid : forallb (fun c => negb (is_open c)) (m_mid2 m) = true).
    { assert (Hb : no_brace (m_mid2 m) = true) by (apply no_brace_ws; assumption).
      unfold no_brace in Hb. rewrite forallb_forall in Hb |- *. intros c Hc. apply Hb in Hc. cbv beta in Hc. apply andb_true_iff in Hc. tauto. }
    repeat (apply andb_true_iff; split); try assumption. }
  destruct (key_found_no_open (text d) path (mem_tail m ++ jpost (map mem_text l2) ++ 125 :: Q)
              (S (length (p ++ mem_head m))) k (S k) _ _ (CSt (S (length (p ++ mem_head m))) br (m_key m) None) Hno' Hm)
    as [(o' & E & Ho')|E].
  { apply Nat.eqb_neq. lia. }
  - rewrite E in Hr2. cbn [bind brace cur keyst] in Hr2. cbn [offset] in Ho'.
    rewrite OUT_key in Hr2 by (try assumption; cbn; assumption).
    cbn [offset] in Hr2. unfold RK in Hr2.
    rewrite key_no_open in Hr2; [|  |lia].
    + rewrite Hr2. reflexivity.
    + assert (Hle : (S (length (p ++ mem_head m)) <= o')%nat) by lia.
      replace o' with (length ((p ++ mem_head m) ++ [58%N]) + (o' - length ((p ++ mem_head m) ++ [58%N])))%nat
        by (rewrite length_snoc; lia).
      rewrite <- skipn_skipn'. apply no_open_skipn.
      assert (Hjp2 : text d = ((p ++ mem_head m) ++ [58]) ++ mem_tail m ++ jpost (map mem_text l2) ++ 125 :: Q)
        by (rewrite Hjp; same_text).
      rewrite Hjp2, skipn_length_app. exact Hno'.
  - rewrite E in Hr2. rewrite Hr2. reflexivity.
Qed.
