(** Decomposition of the text of a tree around the subtree at a path. *)
From Verif Require Import GoStd Json Core Skip.

Local Open Scope N_scope.

Definition elem_text (e : elem jv) : bytes := e_pre e ++ render (e_val e) ++ e_post e.
Definition mem_text (m : mem jv) : bytes :=
  m_pre m ++ 34 :: m_key m ++ 34 :: m_mid m ++ 58 :: m_mid2 m ++ render (m_val m) ++ m_post m.

Definition elem_ok (e : elem jv) : bool := ws_ok (e_pre e) && wf (e_val e) && ws_ok (e_post e).
Definition mem_ok (m : mem jv) : bool :=
  ws_ok (m_pre m) && str_ok (m_key m) && ws_ok (m_mid m) && ws_ok (m_mid2 m) && wf (m_val m) &&
  ws_ok (m_post m).

Lemma render_arr w els : render (JArr w els) = 91 :: w ++ join (map elem_text els) ++ [93].
Proof. reflexivity. Qed.
Lemma render_obj w ms : render (JObj w ms) = 123 :: w ++ join (map mem_text ms) ++ [125].
Proof. reflexivity. Qed.
Lemma wf_arr w els : wf (JArr w els) = ws_ok w && forallb elem_ok els.
Proof. reflexivity. Qed.
Lemma wf_obj w ms : wf (JObj w ms) = ws_ok w && forallb mem_ok ms.
Proof. reflexivity. Qed.

(** Items before / after a given one, with the separating commas. *)
Definition jpre (l : list bytes) : bytes := concat (map (fun x => x ++ [44]) l).
Definition jpost (l : list bytes) : bytes := concat (map (fun x => 44 :: x) l).

Lemma join_cons x l : join (x :: l) = x ++ jpost l.
Proof.
  revert x. induction l as [|y l IH]; intro x; [cbn; symmetry; apply app_nil_r|].
  change (join (x :: y :: l)) with (x ++ 44 :: join (y :: l)). rewrite IH. reflexivity.
Qed.

Lemma join_split l1 x l2 : join (l1 ++ x :: l2) = jpre l1 ++ x ++ jpost l2.
Proof.
  induction l1 as [|y l1 IH]; [apply join_cons|].
  cbn [app]. destruct (l1 ++ x :: l2) as [|z l'] eqn:E; [destruct l1; discriminate|].
  change (join (y :: z :: l')) with (y ++ 44 :: join (z :: l')). rewrite IH.
  unfold jpre. cbn [map concat]. rewrite <- !app_assoc. reflexivity.
Qed.

Lemma jpre_app l1 l2 : jpre (l1 ++ l2) = jpre l1 ++ jpre l2.
Proof. unfold jpre. rewrite map_app, concat_app. reflexivity. Qed.

Lemma jpre_cons x l : jpre (x :: l) = x ++ 44 :: jpre l.
Proof. unfold jpre. cbn [map concat]. rewrite <- app_assoc. reflexivity. Qed.

Lemma jpost_cons x l : jpost (x :: l) = 44 :: x ++ jpost l.
Proof. reflexivity. Qed.

Lemma jpost_app l1 l2 : jpost (l1 ++ l2) = jpost l1 ++ jpost l2.
Proof. unfold jpost. rewrite map_app, concat_app. reflexivity. Qed.

Lemma jpre_jpost l x : jpre l ++ x = match l with [] => x | y :: l' => y ++ jpost (l') ++ 44 :: x end.
Proof.
  revert x. induction l as [|y l IH]; intro x; [reflexivity|].
  rewrite jpre_cons. rewrite <- app_assoc. cbn [app]. rewrite IH.
  destruct l as [|z l]; [reflexivity|]. f_equal. cbn [jpost map concat app].
  f_equal. rewrite <- !app_assoc. reflexivity.
Qed.

(** Text around the element / the value of the member. *)
Definition arr_pre (w : bytes) (l1 : list (elem jv)) (e : elem jv) : bytes :=
  91 :: w ++ jpre (map elem_text l1) ++ e_pre e.
Definition arr_post (e : elem jv) (l2 : list (elem jv)) : bytes :=
  e_post e ++ jpost (map elem_text l2) ++ [93].
Definition obj_kpre (w : bytes) (l1 : list (mem jv)) (m : mem jv) : bytes :=
  123 :: w ++ jpre (map mem_text l1) ++ m_pre m ++ [34].
Definition obj_mid (m : mem jv) : bytes := 34 :: m_mid m ++ 58 :: m_mid2 m.
Definition obj_pre (w : bytes) (l1 : list (mem jv)) (m : mem jv) : bytes :=
  obj_kpre w l1 m ++ m_key m ++ obj_mid m.
Definition obj_post (m : mem jv) (l2 : list (mem jv)) : bytes :=
  m_post m ++ jpost (map mem_text l2) ++ [125].

Lemma render_arr_split w l1 e l2 :
  render (JArr w (l1 ++ e :: l2)) = arr_pre w l1 e ++ render (e_val e) ++ arr_post e l2.
Proof.
  rewrite render_arr, map_app. cbn [map]. rewrite join_split.
  unfold arr_pre, arr_post, elem_text. cbn [app]. rewrite <- !app_assoc. reflexivity.
Qed.

Lemma render_obj_split w l1 m l2 :
  render (JObj w (l1 ++ m :: l2)) = obj_pre w l1 m ++ render (m_val m) ++ obj_post m l2.
Proof.
  rewrite render_obj, map_app. cbn [map]. rewrite join_split.
  unfold obj_pre, obj_kpre, obj_mid, obj_post, mem_text. cbn [app].
  repeat (rewrite <- !app_assoc; cbn [app]). reflexivity.
Qed.

(** Not the key of any member. *)
Definition nokey (x : bytes) (ms : list (mem jv)) : Prop := Forall (fun m => m_key m <> x) ms.

(** [focus t p pre v post]: the subtree of [t] at path [p] is [v], and it is surrounded by [pre] and
    [post] in the text of [t]. *)
Inductive focus : jv -> list bytes -> bytes -> jv -> bytes -> Prop :=
| F_nil v : focus v [] [] v []
| F_arr w l1 e l2 x p pre v post :
    atoi x = Some (Z.of_nat (length l1)) ->
    focus (e_val e) p pre v post ->
    focus (JArr w (l1 ++ e :: l2)) (x :: p) (arr_pre w l1 e ++ pre) v (post ++ arr_post e l2)
| F_obj w l1 m l2 p pre v post :
    nokey (m_key m) l1 ->
    focus (m_val m) p pre v post ->
    focus (JObj w (l1 ++ m :: l2)) (m_key m :: p) (obj_pre w l1 m ++ pre) v (post ++ obj_post m l2).

Lemma focus_render t p pre v post : focus t p pre v post -> render t = pre ++ render v ++ post.
Proof.
  induction 1 as [v|w l1 e l2 x p pre v post Hx Hf IH|w l1 m l2 p pre v post Hk Hf IH].
  - cbn. symmetry. apply app_nil_r.
  - rewrite render_arr_split, IH. rewrite <- !app_assoc. reflexivity.
  - rewrite render_obj_split, IH. rewrite <- !app_assoc. reflexivity.
Qed.

Lemma find_mem_split x ms m :
  find_mem x ms = Some m -> m_key m = x /\ exists l1 l2, ms = l1 ++ m :: l2 /\ nokey x l1.
Proof.
  unfold find_mem. induction ms as [|a ms IH]; cbn; [discriminate|].
  destruct (bytes_eqb_spec (m_key a) x) as [E|E]; intro H.
  - injection H as ->. split; [exact E|]. exists [], ms. split; [reflexivity|constructor].
  - destruct (IH H) as (Hk & l1 & l2 & -> & Hn). split; [exact Hk|].
    exists (a :: l1), l2. split; [reflexivity|]. constructor; assumption.
Qed.

Lemma find_mem_app x l1 m l2 : nokey x l1 -> m_key m = x -> find_mem (V := jv) x (l1 ++ m :: l2) = Some m.
Proof.
  intros Hn Hk. unfold find_mem. induction Hn as [|a l1 Ha Hn IH]; cbn.
  - rewrite Hk, bytes_eqb_refl. reflexivity.
  - destruct (bytes_eqb_spec (m_key a) x); [contradiction|exact IH].
Qed.

Lemma find_mem_none x ms : find_mem x ms = None <-> nokey x ms.
Proof.
  unfold find_mem, nokey. induction ms as [|a ms IH]; cbn; [split; constructor|].
  destruct (bytes_eqb_spec (m_key a) x) as [E|E]; split; intro H.
  - discriminate.
  - inversion H; contradiction.
  - constructor; [exact E|]. apply IH. exact H.
  - inversion H. apply IH. assumption.
Qed.

Lemma nth_z_split {A} (l : list A) z a :
  nth_z l z = Some a -> exists l1 l2, l = l1 ++ a :: l2 /\ z = Z.of_nat (length l1).
Proof.
  unfold nth_z. destruct ((0 <=? z) && (z <? Z.of_nat (length l)))%Z eqn:E; [|discriminate].
  apply andb_true_iff in E. destruct E as [E1 E2]. apply Z.leb_le in E1. apply Z.ltb_lt in E2.
  intro H. apply nth_error_split in H. destruct H as (l1 & l2 & -> & Hl).
  exists l1, l2. split; [reflexivity|]. rewrite Hl. lia.
Qed.

Lemma nth_z_app {A} (l1 : list A) a l2 : nth_z (l1 ++ a :: l2) (Z.of_nat (length l1)) = Some a.
Proof.
  unfold nth_z. rewrite app_length. cbn [length].
  replace (0 <=? Z.of_nat (length l1))%Z with true by (symmetry; apply Z.leb_le; lia).
  replace (Z.of_nat (length l1) <? Z.of_nat (length l1 + S (length l2)))%Z with true
    by (symmetry; apply Z.ltb_lt; lia).
  cbn [andb]. rewrite Nat2Z.id. rewrite nth_error_app2 by lia. rewrite Nat.sub_diag. reflexivity.
Qed.

Lemma lookup_focus t p v : lookup t p = Some v -> exists pre post, focus t p pre v post.
Proof.
  revert t. induction p as [|x p IH]; intros t H; cbn in H.
  - injection H as ->. exists [], []. constructor.
  - destruct t as [s|s|w els|w ms]; cbn in H; try discriminate.
    + destruct (atoi x) as [z|] eqn:Ex; [|discriminate].
      destruct (nth_z els z) as [e|] eqn:En; [|discriminate]. cbn in H.
      apply nth_z_split in En. destruct En as (l1 & l2 & -> & ->).
      destruct (IH _ H) as (pre & post & Hf). do 2 eexists. econstructor; eassumption.
    + destruct (find_mem x ms) as [m|] eqn:En; [|discriminate]. cbn in H.
      apply find_mem_split in En. destruct En as (Hk & l1 & l2 & -> & Hn).
      destruct (IH _ H) as (pre & post & Hf). do 2 eexists. subst x. constructor; eassumption.
Qed.

Lemma focus_lookup t p pre v post : focus t p pre v post -> lookup t p = Some v.
Proof.
  induction 1 as [v|w l1 e l2 x p pre v post Hx Hf IH|w l1 m l2 p pre v post Hk Hf IH]; cbn.
  - reflexivity.
  - rewrite Hx, nth_z_app. exact IH.
  - rewrite find_mem_app by auto. exact IH.
Qed.

Lemma set_nth_app {A} (l1 : list A) a l2 f : set_nth (l1 ++ a :: l2) (length l1) f = l1 ++ f a :: l2.
Proof. induction l1 as [|b l1 IH]; cbn; [reflexivity|]. rewrite IH. reflexivity. Qed.

Lemma set_mem_app x l1 m l2 f : nokey x l1 -> m_key m = x -> set_mem x f (l1 ++ m :: l2) = l1 ++ f m :: l2.
Proof.
  intros Hn Hk. induction Hn as [|a l1 Ha Hn IH]; cbn.
  - rewrite Hk, bytes_eqb_refl. reflexivity.
  - destruct (bytes_eqb_spec (m_key a) x); [contradiction|]. rewrite IH. reflexivity.
Qed.

(** Changing the subtree changes exactly the text between [pre] and [post]. *)
Lemma focus_modify t p pre v post f v' :
  focus t p pre v post -> f v = Some v' ->
  exists t', modify t p f = Some t' /\ focus t' p pre v' post.
Proof.
  induction 1 as [v|w l1 e l2 x p pre v post Hx Hf IH|w l1 m l2 p pre v post Hk Hf IH]; intro H.
  - exists v'. split; [exact H|]. constructor.
  - destruct (IH H) as (c' & Hm & Hf'). cbn [modify child]. rewrite Hx, nth_z_app. cbn [option_map].
    rewrite Hm. eexists. split; [reflexivity|]. cbn [set_child]. rewrite Hx, Nat2Z.id, set_nth_app.
    change (arr_pre w l1 e) with (arr_pre w l1 (Elem (e_pre e) c' (e_post e))).
    change (arr_post e l2) with (arr_post (Elem (e_pre e) c' (e_post e)) l2).
    constructor; assumption.
  - destruct (IH H) as (c' & Hm & Hf'). cbn [modify child]. rewrite find_mem_app by auto.
    cbn [option_map]. rewrite Hm. eexists. split; [reflexivity|]. cbn [set_child].
    rewrite set_mem_app by auto.
    change (obj_pre w l1 m) with (obj_pre w l1 (with_val m c')).
    change (obj_post m l2) with (obj_post (with_val m c') l2).
    change (m_key m) with (m_key (with_val m c')).
    constructor; assumption.
Qed.

Lemma focus_app t p pre c post q pre' v post' :
  focus t p pre c post -> focus c q pre' v post' ->
  focus t (p ++ q) (pre ++ pre') v (post' ++ post).
Proof.
  induction 1 as [v0|w l1 e l2 x p pre v0 post Hx Hf IH|w l1 m l2 p pre v0 post Hk Hf IH]; intro H.
  - cbn. rewrite app_nil_r. exact H.
  - cbn [app]. rewrite <- (app_assoc (arr_pre _ _ _)), (app_assoc post'). constructor; auto.
  - cbn [app]. rewrite <- (app_assoc (obj_pre _ _ _)), (app_assoc post'). constructor; auto.
Qed.

Lemma focus_split t p q pre v post :
  focus t (p ++ q) pre v post ->
  exists pre1 c post1 pre2 post2, focus t p pre1 c post1 /\ focus c q pre2 v post2 /\
    pre = pre1 ++ pre2 /\ post = post2 ++ post1.
Proof.
  revert t pre post. induction p as [|x p IH]; intros t pre post H.
  - exists [], t, [], pre, post. cbn [app] in *. rewrite app_nil_r. repeat split; [constructor|exact H].
  - cbn [app] in H. inversion H; subst.
    + match goal with HH : focus _ (p ++ q) _ _ _ |- _ => destruct (IH _ _ _ HH) as (pre1 & c & post1 & pre2 & post2 & Hf1 & Hf2 & -> & ->) end.
      do 5 eexists. split; [constructor; eassumption|]. split; [exact Hf2|].
      rewrite !app_assoc. split; reflexivity.
    + match goal with HH : focus _ (p ++ q) _ _ _ |- _ => destruct (IH _ _ _ HH) as (pre1 & c & post1 & pre2 & post2 & Hf1 & Hf2 & -> & ->) end.
      do 5 eexists. split; [constructor; eassumption|]. split; [exact Hf2|].
      rewrite !app_assoc. split; reflexivity.
Qed.

Lemma focus_wf t p pre v post : focus t p pre v post -> wf t = true -> wf v = true.
Proof.
  induction 1 as [v|w l1 e l2 x p pre v post Hx Hf IH|w l1 m l2 p pre v post Hk Hf IH]; intro H.
  - exact H.
  - rewrite wf_arr, forallb_app in H. cbn [forallb] in H. nbool. apply IH.
    unfold elem_ok in *. nbool. assumption.
  - rewrite wf_obj, forallb_app in H. cbn [forallb] in H. nbool. apply IH.
    unfold mem_ok in *. nbool. assumption.
Qed.

Lemma modify_wf t p f v v' t' :
  lookup t p = Some v -> f v = Some v' -> wf t = true -> wf v' = true -> modify t p f = Some t' ->
  wf t' = true.
Proof.
  intros Hl Hf Hw Hw'. destruct (lookup_focus _ _ _ Hl) as (pre & post & HF). clear Hl. revert t'.
  induction HF as [v|w l1 e l2 x p pre v post Hx HF IH|w l1 m l2 p pre v post Hk HF IH];
    intros t' Hm; cbn [modify child] in Hm.
  - congruence.
  - rewrite Hx, nth_z_app in Hm. cbn [option_map] in Hm.
    destruct (modify (e_val e) p f) as [c'|] eqn:E; [|discriminate]. injection Hm as <-.
    rewrite wf_arr, forallb_app in Hw. cbn [forallb] in Hw. nbool.
    match goal with H : elem_ok e = true |- _ => unfold elem_ok in H end. nbool.
    cbn [set_child]. rewrite Hx, Nat2Z.id, set_nth_app, wf_arr, forallb_app. cbn [forallb].
    unfold elem_ok at 2. cbn [e_pre e_val e_post].
    rewrite (IH Hf) by (try reflexivity; assumption).
    repeat match goal with H : _ = true |- _ => rewrite H end. reflexivity.
  - rewrite find_mem_app in Hm by auto. cbn [option_map] in Hm.
    destruct (modify (m_val m) p f) as [c'|] eqn:E; [|discriminate]. injection Hm as <-.
    rewrite wf_obj, forallb_app in Hw. cbn [forallb] in Hw. nbool.
    match goal with H : mem_ok m = true |- _ => unfold mem_ok in H end. nbool.
    cbn [set_child]. rewrite set_mem_app by auto. rewrite wf_obj, forallb_app. cbn [forallb].
    unfold mem_ok at 2. cbn [m_pre m_key m_mid m_mid2 m_val m_post with_val].
    rewrite (IH Hf) by (try reflexivity; assumption).
    repeat match goal with H : _ = true |- _ => rewrite H end. reflexivity.
Qed.

(** ** Scanners pass over items *)
Section SkipItems.
  Variable json : bytes.
  Variables R E : Type.
  Variable L : bytes -> nat -> bool -> nat -> E -> R.
  Variable base : nat.
  Hypothesis SC : scanner json R E L base.

  Lemma Skips_val d v : wf v = true -> Skips json R E L base d (render v).
  Proof. intro H. apply Skips_mono with (d := O); [lia|]. apply Skips_value; assumption. Qed.

  Lemma Skips_elem d e : elem_ok e = true -> Skips json R E L base d (elem_text e).
  Proof.
    unfold elem_ok, elem_text. intro H. nbool.
    apply Skips_app; [apply Skips_ws; assumption|].
    apply Skips_app; [apply Skips_val; assumption|apply Skips_ws; assumption].
  Qed.

  Lemma Skips_mem d m : (1 <= d)%nat -> mem_ok m = true -> Skips json R E L base d (mem_text m).
  Proof.
    unfold mem_ok, mem_text. intros Hd H. nbool. apply Skips_app; [apply Skips_ws; assumption|].
    match goal with |- Skips _ _ _ _ _ _ (34 :: ?k ++ 34 :: ?t) =>
        change (34 :: k ++ 34 :: t) with (34 :: k ++ [34] ++ t); rewrite app_assoc end.
    apply (Skips_app _ _ _ _ _ d (34 :: _)); [apply Skips_string; assumption|].
    apply Skips_app; [apply Skips_ws; assumption|].
    apply Skips_cons; [apply Skips_sep; [assumption|right; reflexivity|lia]|].
    apply Skips_app; [apply Skips_ws; assumption|].
    apply Skips_app; [apply Skips_val; assumption|apply Skips_ws; assumption].
  Qed.
End SkipItems.
