(** Laws of the updates: what one undoes, what commutes, what whitespace does not change. *)
From Coq Require Import String.
From Verif Require Import GoStd Json Spec SpecProofs Focus Domains Core Skip CoreProofs Errors Api ApiProofs Updates Ops History Neat.

Local Open Scope N_scope.

(** ** A document with one value exchanged *)
Lemma with_at d p pre v post v' :
  wf_doc d = true -> focus (d_val d) p pre v post -> wf v' = true ->
  exists d', wf_doc d' = true /\ d_pre d' = d_pre d /\ d_post d' = d_post d /\ focus (d_val d') p pre v' post /\
             text d' = d_pre d ++ pre ++ render v' ++ post ++ d_post d.
Proof.
  intros Hw Hf Hv. destruct (focus_modify _ _ _ _ _ (fun _ => Some v') v' Hf eq_refl) as (t' & Hm & Hf').
  exists (Doc (d_pre d) t' (d_post d)). cbn [d_pre d_val d_post].
  split; [|split; [reflexivity|split; [reflexivity|split; [exact Hf'|]]]].
  - assert (wf t' = true).
    { exact (modify_wf _ _ (fun _ => Some v') v v' t' (focus_lookup _ _ _ _ _ Hf) eq_refl (wf_doc_val _ Hw) Hv Hm). }
    unfold wf_doc in *. cbn [d_pre d_val d_post]. nbool.
    repeat match goal with H : _ = true |- _ => rewrite H end. reflexivity.
  - unfold text. cbn [d_pre d_val d_post]. rewrite (focus_render _ _ _ _ _ Hf'). same_text.
Qed.

Lemma app_text d p pre v post : focus (d_val d) p pre v post ->
  text d = d_pre d ++ pre ++ render v ++ post ++ d_post d.
Proof. intro H. rewrite (text_focus _ _ _ _ _ H). same_text. Qed.

(** ** Undoing *)
Lemma nokey_none x ms : find_mem (V := jv) x ms = None -> nokey x ms.
Proof. apply find_mem_none. Qed.

Lemma cut_new_elem w els v : render (cut_elem w els (Elem [] v []) []) = render (JArr w els).
Proof.
  unfold cut_elem. destruct els as [|e1 els] using rev_ind; cbn [rev].
  - rewrite app_nil_r. reflexivity.
  - rewrite rev_app_distr. cbn [rev app]. rewrite rev_involutive. cbn [e_post]. rewrite app_nil_r. destruct e1; reflexivity.
Qed.
Lemma cut_new_mem w ms k v : render (cut_mem w ms (new_mem k v) []) = render (JObj w ms).
Proof.
  unfold cut_mem. destruct ms as [|m1 ms] using rev_ind; cbn [rev].
  - cbn. rewrite app_nil_r. reflexivity.
  - rewrite rev_app_distr. cbn [rev app]. rewrite rev_involutive. cbn [m_post new_mem]. rewrite app_nil_r. destruct m1; reflexivity.
Qed.

Theorem add_undone d p w els v : wf_doc d = true -> wf v = true -> lookup (d_val d) p = Some (JArr w els) ->
  (Z.of_nat (length els) <= int64_max)%Z ->
  exists out, Add_ (text d) (render v) p = Done out /\ Delete out (p ++ [itoa (Z.of_nat (length els))]) = Done (text d).
Proof.
  intros Hw Hv Hl Hmax. destruct (lookup_focus _ _ _ Hl) as (pre & post & Hf).
  rewrite (add_arr d p pre w els post v Hw Hf). eexists. split; [reflexivity|].
  pose proof (wf_arr_snoc _ _ _ (focus_wf _ _ _ _ _ Hf (wf_doc_val _ Hw)) Hv) as Hwn.
  destruct (with_at d p pre _ post _ Hw Hf Hwn) as (d1 & Hw1 & Hp1 & Hp2 & Hf1 & <-).
  rewrite (delete_arr d1 p _ w els (Elem [] v []) [] pre post Hw1 Hf1).
  - rewrite cut_new_elem, Hp1, Hp2, (app_text _ _ _ _ _ Hf). reflexivity.
  - apply atoi_itoa. unfold in_int64, int64_min, int64_max in *. lia.
Qed.

Theorem add_pair_undone d p k value w ms out : wf_doc d = true -> wf (value_text value) = true -> str_ok k = true ->
  lookup (d_val d) p = Some (JObj w ms) -> find_mem k ms = None ->
  AddKeyValue (text d) k (option_map render value) p = Done out -> Delete out (p ++ [k]) = Done (text d).
Proof.
  intros Hw Hv Hk Hl Hn Ho. destruct (lookup_focus _ _ _ Hl) as (pre & post & Hf).
  assert (Eo : out = d_pre d ++ pre ++ render (JObj w (ms ++ [new_mem k (value_text value)])) ++ post ++ d_post d).
  { rewrite (add_kv_at_obj d p pre w ms post k value Hw Hf) in Ho. cbv zeta in Ho.
    destruct ms as [|m ms]; [congruence|]. destruct (core (text d) false (p ++ [k])); try discriminate.
    destruct (err_equal (Some e) 8); [congruence|discriminate]. }
  subst out.
  pose proof (wf_obj_snoc _ _ _ _ (focus_wf _ _ _ _ _ Hf (wf_doc_val _ Hw)) Hk Hv) as Hwn.
  destruct (with_at d p pre _ post _ Hw Hf Hwn) as (d1 & Hw1 & Hp1 & Hp2 & Hf1 & <-).
  change k with (m_key (new_mem k (value_text value))) at 1.
  rewrite (delete_obj d1 p w ms (new_mem k (value_text value)) [] pre post Hw1 Hf1 (nokey_none _ _ Hn)).
  rewrite cut_new_mem, Hp1, Hp2, (app_text _ _ _ _ _ Hf). reflexivity.
Qed.

Theorem insert_undone d p z w els v out : wf_doc d = true -> wf v = true -> (z <= int64_max)%Z ->
  lookup (d_val d) p = Some (JArr w els) -> nth_z els z <> None -> insert_layout els z ->
  Insert (text d) z (render v) p = Done out -> Delete out (p ++ [itoa z]) = Done (text d).
Proof.
  intros Hw Hv Hz Hl Hn Hlay Ho. destruct (lookup_focus _ _ _ Hl) as (pre & post & Hf).
  destruct (nth_z els z) as [e|] eqn:En; [|congruence]. destruct (nth_z_split _ _ _ En) as (l1 & l2 & -> & ->).
  assert (Hins : insertable l1 e l2).
  { unfold insertable. destruct Hlay as [H|[H|(e' & H & He)]].
    - right. left. intros ->. rewrite app_length in H. cbn [length] in H. lia.
    - left. rewrite app_length in H. cbn [length] in H. destruct l1; [reflexivity|cbn [length] in H; lia].
    - right. right. rewrite nth_z_app in H. congruence. }
  rewrite (insert_arr d p pre w l1 e l2 post v Hw Hf Hz Hins) in Ho.
  remember (ins_elem w l1 v e l2) as u eqn:Eu. injection Ho as <-. subst u.
  pose proof (ins_elem_wf _ _ _ _ _ (focus_wf _ _ _ _ _ Hf (wf_doc_val _ Hw)) Hv) as Hwn.
  destruct (with_at d p pre _ post _ Hw Hf Hwn) as (d1 & Hw1 & Hp1 & Hp2 & Hf1 & <-). unfold ins_elem in Hf1.
  rewrite (delete_arr d1 p _ w l1 _ _ pre post Hw1 Hf1).
  - cbn [cut_elem e_pre e_val e_post]. rewrite app_nil_r, Hp1, Hp2, (app_text _ _ _ _ _ Hf). destruct e; reflexivity.
  - apply atoi_itoa. unfold in_int64, int64_min, int64_max in *. lia.
Qed.

(** Renaming back. *)
Lemma setkey_done json k q x out : SetKey json k (q ++ [x]) = Done out -> k <> [] /\ exists e,
  core json false (q ++ [k]) = Err e /\ err_equal (Some e) 8 = true.
Proof.
  intro H. assert (Hk : k <> []).
  { intros ->. unfold SetKey in H. destruct (q ++ [x]); discriminate. }
  split; [exact Hk|]. rewrite SetKey_unfold in H by exact Hk.
  destruct (core json false (q ++ [k])) as [a|e|]; try discriminate.
  destruct (err_equal (Some e) 8) eqn:E; [|discriminate]. exists e. auto.
Qed.

Lemma setkey_obj_gen d q pre w l1 m l2 post k out :
  wf_doc d = true -> focus (d_val d) q pre (JObj w (l1 ++ m :: l2)) post -> nokey (m_key m) l1 ->
  SetKey (text d) k (q ++ [m_key m]) = Done out ->
  out = d_pre d ++ pre ++ render (JObj w (l1 ++ rename m k :: l2)) ++ post ++ d_post d.
Proof.
  intros Hw Hf Hnk Ho. pose proof (focus_wf _ _ _ _ _ Hf (wf_doc_val _ Hw)) as Hwv.
  destruct (setkey_done _ _ _ _ _ Ho) as (Hk & er & Hc & He).
  rewrite SetKey_unfold in Ho by exact Hk. rewrite Hc, He in Ho.
  rewrite (core_obj d q w l1 m l2 pre post false Hw Hf Hnk) in Ho. cbv zeta iota in Ho. cbn [ubind] in Ho.
  assert (Hokm : str_ok (m_key m) = true).
  { rewrite wf_obj, forallb_app in Hwv. cbn [forallb] in Hwv. nbool. unfold mem_ok in H1. nbool. assumption. }
  assert (Ht : text d = (d_pre d ++ pre ++ obj_kpre w l1 m) ++ m_key m ++ (obj_mid m ++ render (m_val m) ++ obj_post m l2 ++ post ++ d_post d)).
  { rewrite (text_focus _ _ _ _ _ Hf), render_obj_split. unfold obj_pre. same_text. }
  rewrite Ht in Ho at 1. rewrite skipn_length_app in Ho. unfold obj_mid at 1 in Ho. cbn [app] in Ho.
  rewrite setkey_loop_spec in Ho; [|exact Hokm|unfold obj_pre, obj_mid; len]. cbn [pbind] in Ho.
  unfold done_replace in Ho. rewrite (replace_app_eq _ _ _ _ k _ _ Ht eq_refl) in Ho by len. cbn [pbind] in Ho. injection Ho as <-.
  rewrite (render_obj_split w l1 (rename m k) l2). unfold obj_pre, obj_kpre, obj_mid, obj_post, rename. cbn [m_pre m_key m_mid m_mid2 m_val m_post].
  same_text.
Qed.

Theorem setkey_undone d q x k w ms out out2 : wf_doc d = true -> str_ok k = true ->
  lookup (d_val d) q = Some (JObj w ms) -> find_mem x ms <> None -> find_mem k ms = None ->
  SetKey (text d) k (q ++ [x]) = Done out -> SetKey out x (q ++ [k]) = Done out2 -> out2 = text d.
Proof.
  intros Hw Hk Hl Hx Hn Ho Ho2. destruct (lookup_focus _ _ _ Hl) as (pre & post & Hf).
  destruct (find_mem x ms) as [m|] eqn:E; [|congruence]. destruct (find_mem_split _ _ _ E) as (Hkx & l1 & l2 & -> & Hnk). subst x.
  pose proof (setkey_obj_gen d q pre w l1 m l2 post k out Hw Hf Hnk Ho) as ->.
  pose proof (focus_wf _ _ _ _ _ Hf (wf_doc_val _ Hw)) as Hwv.
  assert (Hwn : wf (JObj w (l1 ++ rename m k :: l2)) = true).
  { rewrite wf_obj, forallb_app in *. cbn [forallb] in *. nbool. unfold mem_ok in H1. nbool.
    unfold mem_ok at 2. cbn [m_pre m_key m_mid m_mid2 m_val m_post rename].
    repeat match goal with H : _ = true |- _ => rewrite H end. reflexivity. }
  destruct (with_at d q pre _ post _ Hw Hf Hwn) as (d1 & Hw1 & Hp1 & Hp2 & Hf1 & Ht1). rewrite <- Ht1 in Ho2.
  apply nokey_none in Hn. unfold nokey in Hn. rewrite Forall_app in Hn. destruct Hn as [Hn _].
  rewrite (setkey_obj_gen d1 q pre w l1 (rename m k) l2 post (m_key m) out2 Hw1 Hf1 Hn Ho2).
  rewrite Hp1, Hp2, (app_text _ _ _ _ _ Hf). destruct m; reflexivity.
Qed.

(** ** Changes at positions that part commute *)
Lemma set_nth_nth {A} (l : list A) n f g : set_nth (set_nth l n f) n g = set_nth l n (fun a => g (f a)).
Proof. revert n. induction l as [|a l IH]; intros [|n]; cbn; rewrite ?IH; reflexivity. Qed.
Lemma set_nth_swap {A} (l : list A) n m f g : n <> m -> set_nth (set_nth l n f) m g = set_nth (set_nth l m g) n f.
Proof. revert n m. induction l as [|a l IH]; intros [|n] [|m] H; cbn; try reflexivity; try congruence. f_equal. apply IH. congruence. Qed.
Lemma assoc_set_set {V} x (c c' : V) ms : assoc_set x c' (assoc_set x c ms) = assoc_set x c' ms.
Proof. induction ms as [|[k v] ms IH]; cbn; [reflexivity|]. destruct (bytes_eqb k x) eqn:E; cbn; rewrite E, ?IH; reflexivity. Qed.
Lemma assoc_set_swap {V} x y (c c' : V) ms : x <> y -> assoc_set y c' (assoc_set x c ms) = assoc_set x c (assoc_set y c' ms).
Proof.
  intro H. induction ms as [|[k v] ms IH]; cbn; [reflexivity|].
  destruct (bytes_eqb_spec k x) as [E|E], (bytes_eqb_spec k y) as [F|F]; try congruence; cbn;
    repeat match goal with
           | E : ?a = ?c |- context [bytes_eqb ?a ?c] => rewrite (proj2 (bytes_eqb_eq a c) E)
           | E : ?a <> ?c |- context [bytes_eqb ?a ?c] => rewrite (proj2 (bytes_eqb_neq a c) E)
           end; try reflexivity. rewrite IH. reflexivity.
Qed.
Lemma set_mem_set x c c' ms : set_mem x (fun m => with_val m c') (set_mem x (fun m => with_val m c) ms) = set_mem x (fun m => with_val m c') ms.
Proof.
  induction ms as [|m ms IH]; cbn; [reflexivity|]. destruct (bytes_eqb (m_key m) x) eqn:E; cbn; rewrite E; [reflexivity|].
  rewrite IH. reflexivity.
Qed.
Lemma set_mem_swap x y c c' ms : x <> y ->
  set_mem y (fun m => with_val m c') (set_mem x (fun m => with_val m c) ms) =
  set_mem x (fun m => with_val m c) (set_mem y (fun m => with_val m c') ms).
Proof.
  intro H. induction ms as [|m ms IH]; cbn; [reflexivity|].
  destruct (bytes_eqb_spec (m_key m) x) as [E|E], (bytes_eqb_spec (m_key m) y) as [F|F]; try congruence; cbn;
    repeat match goal with
           | E : ?a = ?c |- context [bytes_eqb ?a ?c] => rewrite (proj2 (bytes_eqb_eq a c) E)
           | E : ?a <> ?c |- context [bytes_eqb ?a ?c] => rewrite (proj2 (bytes_eqb_neq a c) E)
           end; try reflexivity. rewrite IH. reflexivity.
Qed.

Lemma set_child_twice t x c c' : set_child (set_child t x c) x c' = set_child t x c'.
Proof.
  destruct t as [s|s|w els|w ms]; cbn [set_child]; try reflexivity.
  - destruct (atoi x) as [z|] eqn:E; cbn [set_child]; rewrite E; [|reflexivity]. rewrite set_nth_nth. reflexivity.
  - rewrite set_mem_set. reflexivity.
Qed.
Lemma set_child_same_step t x y c : same_step (content t) x y -> set_child t x c = set_child t y c.
Proof. destruct t; cbn; intro H; rewrite ?H; reflexivity. Qed.
Lemma same_step_set t x y a c : same_step (content t) x y -> same_step (content (set_child t a c)) x y.
Proof. destruct t; cbn [set_child content same_step]; try (intro H; exact H). destruct (atoi a); intro H; exact H. Qed.
Lemma set_child_swap t x y a a' c c' : child t x = Some a -> child t y = Some a' -> ~ same_step (content t) x y ->
  set_child (set_child t x c) y c' = set_child (set_child t y c') x c.
Proof.
  destruct t as [s|s|w els|w ms]; cbn [child set_child content same_step]; intros Hx Hy Hn; try reflexivity.
  - destruct (atoi x) as [z|] eqn:E; [|discriminate]. destruct (atoi y) as [u|] eqn:F; [|discriminate].
    cbn [set_child]. rewrite E, F. f_equal. apply set_nth_swap. unfold nth_z in Hx, Hy.
    destruct (0 <=? z)%Z eqn:E2; [|discriminate]. destruct (0 <=? u)%Z eqn:F2; [|discriminate]. intro Q. apply Hn. f_equal. lia.
  - f_equal. apply set_mem_swap. exact Hn.
Qed.

Theorem modify_swap t p q f g t1 t2 : modify t p f = Some t1 -> modify t q g = Some t2 -> apart (content t) p q ->
  exists t3, modify t1 q g = Some t3 /\ modify t2 p f = Some t3.
Proof.
  revert q t t1 t2. induction p as [|x p IH]; intros q t t1 t2 H1 H2 Ha; [destruct q; contradiction Ha|].
  destruct q as [|y q]; [contradiction Ha|]. cbn [modify apart] in *.
  destruct (child t x) as [c|] eqn:E; [|discriminate]. destruct (modify c p f) as [c1|] eqn:E1; [|discriminate]. injection H1 as <-.
  destruct (child t y) as [c'|] eqn:F; [|discriminate]. destruct (modify c' q g) as [c2|] eqn:F1; [|discriminate]. injection H2 as <-.
  destruct (same_step_dec (content t) x y) as [Hs|Hs].
  - destruct (Ha Hs) as (c0 & Hc0 & Ha'). rewrite child_content, E in Hc0. injection Hc0 as <-.
    assert (c' = c) as -> by (rewrite (child_same_step _ _ _ Hs) in E; congruence).
    destruct (IH q c c1 c2 E1 F1 Ha') as (c3 & G1 & G2).
    rewrite <- (child_same_step (set_child t x c1) x y) by (apply same_step_set; exact Hs).
    rewrite (child_set_same _ _ _ _ E), G1.
    rewrite (child_same_step (set_child t y c2) x y) by (apply same_step_set; exact Hs).
    rewrite (child_set_same _ _ _ _ F), G2. eexists. split; [reflexivity|]. f_equal.
    rewrite <- (set_child_same_step (set_child t x c1) x y) by (apply same_step_set; exact Hs).
    rewrite set_child_twice. rewrite <- (set_child_same_step t x y) by exact Hs. rewrite set_child_twice. reflexivity.
  - rewrite (child_set_other _ _ _ _ _ E Hs), F, F1.
    assert (Hs' : ~ same_step (content t) y x) by (destruct (content t); cbn in *; congruence).
    rewrite (child_set_other _ _ _ _ _ F Hs'), E, E1. eexists. split; [reflexivity|]. f_equal.
    eapply set_child_swap; [exact F|exact E|exact Hs'].
Qed.

Theorem set_same d p v : wf_doc d = true -> p <> [] -> lookup (d_val d) p = Some v ->
  Set_ (text d) (render v) p = Done (text d).
Proof. intros Hw Hp Hl. destruct (set_local d p v Hw Hp Hl) as (A & B & -> & H). apply H. Qed.

Theorem set_twice d p v v1 new : wf_doc d = true -> wf v1 = true -> p <> [] -> lookup (d_val d) p = Some v ->
  exists out, Set_ (text d) (render v1) p = Done out /\ Set_ out new p = Set_ (text d) new p.
Proof.
  intros Hw Hv Hp Hl. destruct (lookup_focus _ _ _ Hl) as (pre & post & Hf).
  rewrite !(set_present d p pre v post _ Hw Hp Hf). eexists. split; [reflexivity|].
  destruct (with_at d p pre v post v1 Hw Hf Hv) as (d1 & Hw1 & Hp1 & Hp2 & Hf1 & Ht1).
  rewrite <- Ht1.
  rewrite (set_present d1 p pre v1 post new Hw1 Hp Hf1), Hp1, Hp2. reflexivity.
Qed.

Theorem sets_commute d p q v1 v2 : wf_doc d = true -> wf v1 = true -> wf v2 = true ->
  lookup (d_val d) p <> None -> lookup (d_val d) q <> None -> apart (content (d_val d)) p q ->
  exists out1 out2 out, Set_ (text d) (render v1) p = Done out1 /\ Set_ out1 (render v2) q = Done out /\
                        Set_ (text d) (render v2) q = Done out2 /\ Set_ out2 (render v1) p = Done out.
Proof.
  intros Hw H1 H2 Lp Lq Ha.
  assert (Hp : p <> []) by (destruct p; [destruct q; contradiction Ha|discriminate]).
  assert (Hq : q <> []) by (destruct p, q; try contradiction Ha; discriminate).
  destruct (lookup (d_val d) p) as [u1|] eqn:E1; [|congruence]. destruct (lookup (d_val d) q) as [u2|] eqn:E2; [|congruence].
  destruct (lookup_focus _ _ _ E1) as (pr1 & po1 & F1). destruct (lookup_focus _ _ _ E2) as (pr2 & po2 & F2).
  destruct (focus_modify _ _ _ _ _ (fun _ => Some v1) v1 F1 eq_refl) as (t1 & M1 & _).
  destruct (focus_modify _ _ _ _ _ (fun _ => Some v2) v2 F2 eq_refl) as (t2 & M2 & _).
  destruct (modify_swap _ _ _ _ _ _ _ M1 M2 Ha) as (t3 & M3 & M4).
  assert (W1 : wf_doc (Doc (d_pre d) t1 (d_post d)) = true).
  { pose proof (modify_wf _ _ _ _ _ _ E1 eq_refl (wf_doc_val _ Hw) H1 M1). unfold wf_doc in *. cbn [d_pre d_val d_post]. nbool.
    repeat match goal with H : _ = true |- _ => rewrite H end. reflexivity. }
  assert (W2 : wf_doc (Doc (d_pre d) t2 (d_post d)) = true).
  { pose proof (modify_wf _ _ _ _ _ _ E2 eq_refl (wf_doc_val _ Hw) H2 M2). unfold wf_doc in *. cbn [d_pre d_val d_post]. nbool.
    repeat match goal with H : _ = true |- _ => rewrite H end. reflexivity. }
  exists (text (Doc (d_pre d) t1 (d_post d))), (text (Doc (d_pre d) t2 (d_post d))), (text (Doc (d_pre d) t3 (d_post d))).
  split; [|split; [|split]].
  - apply set_put; assumption.
  - exact (set_put (Doc (d_pre d) t1 (d_post d)) q v2 t3 W1 Hq M3).
  - apply set_put; assumption.
  - exact (set_put (Doc (d_pre d) t2 (d_post d)) p v1 t3 W2 Hp M4).
Qed.

(** ** Any two operations at positions that part *)
Definition place (o : op) : list bytes :=
  match o with
  | OSet p _ | OAdd p _ | OAddKV p _ _ | OInsert p _ _ | OStore p _ _ => p
  | ODelete q _ | OSetKey q _ _ => q
  end.
Definition effect (o : op) : jd -> option jd :=
  match o with
  | OSet _ v => d_const (content v)
  | ODelete _ x => d_remove x
  | OAdd _ v => d_append (content v)
  | OAddKV _ k v => d_add k (content v)
  | OInsert _ z v => d_insert z (content v)
  | OSetKey _ x k => d_rename x k
  | OStore _ k v => d_store k (content v)
  end.
Lemma meaning_at o t : meaning o t = d_modify t (place o) (effect o).
Proof. destruct o; reflexivity. Qed.

(** What an operation makes of the value at its place: the same text wherever the value stands. *)
Definition args_ok (o : op) : Prop :=
  match o with
  | OSet p v => p <> [] /\ wf v = true
  | ODelete _ _ => True
  | OAdd _ v | OInsert _ _ v => wf v = true
  | OAddKV _ k v | OStore _ k v => wf v = true /\ str_ok k = true
  | OSetKey _ _ k => str_ok k = true
  end.
Lemma legal_args d o : legal d o -> args_ok o.
Proof. destruct o; cbn; tauto. Qed.

Lemma lookup_step p : forall v q, lookup v (p ++ q) = match lookup v p with Some u => lookup u q | None => None end.
Proof. induction p as [|x p IH]; intros v q; cbn [app lookup]; [reflexivity|]. destruct (child v x); [apply IH|reflexivity]. Qed.

(** The same call at the place [r]. *)
Definition move (r : list bytes) (o : op) : op :=
  match o with
  | OSet _ v => OSet r v
  | ODelete _ x => ODelete r x
  | OAdd _ v => OAdd r v
  | OAddKV _ k v => OAddKV r k v
  | OInsert _ z v => OInsert r z v
  | OSetKey _ x k => OSetKey r x k
  | OStore _ k v => OStore r k v
  end.
Definition neat_arg (o : op) : Prop :=
  match o with
  | OSet _ v | OAdd _ v | OAddKV _ _ v | OInsert _ _ v | OStore _ _ v => neat v
  | ODelete _ _ | OSetKey _ _ _ => True
  end.
Lemma op_writes_at o u : args_ok o -> wf u = true -> effect o (content u) <> None ->
  exists u', wf u' = true /\ effect o (content u) = Some (content u') /\ (neat u -> neat_arg o -> neat u') /\
    forall r d pre post, wf_doc d = true -> focus (d_val d) r pre u post -> legal d (move r o) ->
      call (move r o) (text d) = Done (d_pre d ++ pre ++ render u' ++ post ++ d_post d).
Proof.
  destruct o as [p v|q x|p v|p k v|p z v|q x k|p k v]; cbn [args_ok effect move legal call]; intros Ha Hwu Hg.
  - exists v. split; [apply Ha|]. split; [reflexivity|]. split; [intros _ H; exact H|]. intros r d pre post Hw Hf [Hp _].
    exact (set_present d r pre u post (render v) Hw Hp Hf).
  - destruct u as [s|s|w els|w ms]; try (contradiction Hg; reflexivity).
    + cbn [content d_remove] in Hg. destruct (atoi x) as [z|] eqn:Hx; [|contradiction Hg; reflexivity].
      rewrite nth_z_map in Hg. destruct (nth_z els z) as [e|] eqn:Hz; [|contradiction Hg; reflexivity].
      destruct (nth_z_split _ _ _ Hz) as (l1 & l2 & -> & ->).
      exists (cut_elem w l1 e l2). split; [apply cut_elem_wf; exact Hwu|]. split; [apply cut_elem_content; exact Hx|]. split; [intros H _; apply neat_cut_elem; exact H|].
      intros r d pre post Hw Hf _. apply delete_arr; assumption.
    + cbn [content d_remove] in Hg. fold mpair in Hg. rewrite assoc_mpair in Hg.
      destruct (find_mem x ms) as [m|] eqn:Hx; [|contradiction Hg; reflexivity].
      destruct (find_mem_split _ _ _ Hx) as (Hk & l1 & l2 & -> & Hnk). subst x.
      exists (cut_mem w l1 m l2). split; [apply cut_mem_wf; exact Hwu|]. split; [apply cut_mem_content; exact Hnk|]. split; [intros H _; apply neat_cut_mem; exact H|].
      intros r d pre post Hw Hf _. apply delete_obj; assumption.
  - destruct u as [s|s|w els|w ms]; try (contradiction Hg; reflexivity).
    exists (JArr w (els ++ [Elem [] v []])). split; [apply wf_arr_snoc; assumption|].
    split; [cbn [content d_append]; rewrite map_app; reflexivity|]. split; [apply neat_snoc|].
    intros r d pre post Hw Hf _. apply add_arr; assumption.
  - destruct u as [s|s|w els|w ms]; try (contradiction Hg; reflexivity).
    exists (JObj w (ms ++ [new_mem k v])). split; [apply wf_obj_snoc; tauto|]. split.
    { rewrite content_snoc. cbn [content d_add] in *. fold mpair in *. rewrite assoc_mpair in *.
      destruct (find_mem k ms); [contradiction Hg; reflexivity|reflexivity]. }
    split; [apply neat_new|].
    intros r d pre post Hw Hf (_ & _ & Habs). apply (add_kv_obj d r pre w ms post k (Some v) Hw Hf).
    intro Hne. destruct Habs as [Hs|(w' & Hl)]; [apply core_seen_absent; assumption|].
    apply focus_lookup in Hf. congruence.
  - destruct u as [s|s|w els|w ms]; try (contradiction Hg; reflexivity).
    cbn [content d_insert] in Hg. rewrite nth_z_map in Hg. destruct (nth_z els z) as [e|] eqn:Hz; [|contradiction Hg; reflexivity].
    pose proof Hz as Hz2. destruct (nth_z_split _ _ _ Hz) as (l1 & l2 & -> & ->).
    exists (ins_elem w l1 v e l2). split; [apply ins_elem_wf; assumption|]. split; [apply ins_elem_content|]. split; [apply neat_ins|].
    intros r d pre post Hw Hf (_ & Hmax & w' & els & Hl & Hlay).
    rewrite (focus_lookup _ _ _ _ _ Hf) in Hl. injection Hl as <- <-.
    apply insert_arr; [exact Hw|exact Hf|exact Hmax|].
    unfold insertable. destruct Hlay as [H|[H|(e' & H & He)]].
    + right. left. intros ->. rewrite app_length in H. cbn [length] in H. lia.
    + left. rewrite app_length in H. cbn [length] in H. destruct l1; [reflexivity|cbn in H; lia].
    + right. right. congruence.
  - destruct u as [s|s|w els|w ms]; try (contradiction Hg; reflexivity).
    cbn [content d_rename] in Hg. fold mpair in Hg. rewrite !assoc_mpair in Hg.
    destruct (find_mem x ms) as [m|] eqn:Hx; [|contradiction Hg; reflexivity].
    destruct (find_mem k ms) as [|] eqn:Hkm; [contradiction Hg; reflexivity|].
    destruct (find_mem_split _ _ _ Hx) as (Hkx & l1 & l2 & -> & Hnk). subst x.
    exists (JObj w (l1 ++ rename m k :: l2)). split; [|split; [|split]].
    + rewrite wf_obj, forallb_app in *. cbn [forallb] in *. nbool. unfold mem_ok in H1. nbool.
      unfold mem_ok at 2. cbn [m_pre m_key m_mid m_mid2 m_val m_post rename].
      repeat match goal with H : _ = true |- _ => rewrite H end. reflexivity.
    + cbn [content d_rename]. fold mpair. rewrite !assoc_mpair, Hx, Hkm. cbn [option_map]. f_equal. f_equal.
      rewrite !map_app. cbn [map]. change (mpair m) with (m_key m, content (m_val m)).
      rewrite assoc_rename_app by (apply nokey_pairs; exact Hnk). reflexivity.
    + intros H _. apply (neat_mem _ _ _ _ _ H), neat_rename.
    + intros r d pre post Hw Hf (_ & Hk0 & Habs). apply setkey_obj; try assumption. apply core_seen_absent; assumption.
  - destruct u as [s|s|w els|w ms]; try (contradiction Hg; reflexivity). destruct Ha as [Hv Hk].
    destruct (find_mem k ms) as [m|] eqn:Hx.
    + destruct (find_mem_split _ _ _ Hx) as (Hkx & l1 & l2 & -> & Hnk). subst k.
      exists (JObj w (l1 ++ with_val m v :: l2)). split; [|split; [|split]].
      * rewrite wf_obj, forallb_app in *. cbn [forallb] in *. nbool. unfold mem_ok in H1. nbool.
        unfold mem_ok at 2. cbn [m_pre m_key m_mid m_mid2 m_val m_post with_val].
        repeat match goal with H : _ = true |- _ => rewrite H end. reflexivity.
      * cbn [content d_store]. fold mpair. rewrite assoc_mpair, Hx. cbn [option_map]. f_equal. f_equal.
        rewrite assoc_set_mpair, set_mem_app by auto. reflexivity.
      * intros H Hn. apply (neat_mem _ _ _ _ _ H), neat_with, Hn.
      * intros r d pre post Hw Hf _. unfold Store.
        pose proof (focus_mem _ _ _ _ _ _ _ _ Hf Hnk) as Hf2.
        destruct (core_present d (r ++ [m_key m]) _ _ _ Hw ltac:(destruct r; discriminate) Hf2) as (ks & Hc).
        rewrite (Hc false). cbv iota.
        destruct (focus_ends _ _ _ _ _ Hf2 (wf_doc_val _ Hw) ltac:(destruct r; discriminate)) as [N1 N2].
        rewrite (set_span_spec (text d) (render v) (d_pre d ++ pre ++ obj_pre w l1 m) (m_val m) ((obj_post m l2 ++ post) ++ d_post d)).
        2:{ apply N1. }
        2:{ rewrite (text_focus _ _ _ _ _ Hf2). same_text. }
        f_equal. rewrite (render_obj_split w l1 (with_val m v) l2).
        unfold obj_pre, obj_kpre, obj_mid, obj_post, with_val. cbn [m_pre m_key m_mid m_mid2 m_val m_post]. same_text.
    + exists (JObj w (ms ++ [new_mem k v])). split; [apply wf_obj_snoc; assumption|]. split.
      { rewrite content_snoc. cbn [content d_store]. fold mpair. rewrite assoc_mpair, Hx. reflexivity. }
      split; [apply neat_new|].
      intros r d pre post Hw Hf (_ & _ & Hcase).
      assert (Habs : seen_absent d r k).
      { destruct Hcase as [H|H]; [|exact H]. contradiction H. rewrite lookup_content.
        replace (lookup (d_val d) (r ++ [k])) with (@None jv); [reflexivity|].
        rewrite lookup_step, (focus_lookup _ _ _ _ _ Hf). cbn [lookup child]. rewrite Hx. reflexivity. }
      unfold Store. rewrite (core_seen_absent d r k [] false Hw Habs). rewrite err_equal_spec by reflexivity. cbn [err_code Z.eqb Pos.eqb].
      apply (add_kv_obj d r pre w ms post k (Some v) Hw Hf). intros _. apply core_seen_absent; assumption.
Qed.

Lemma move_here o : move (place o) o = o.
Proof. destruct o; reflexivity. Qed.
Lemma op_writes o u : args_ok o -> wf u = true -> effect o (content u) <> None ->
  exists u', wf u' = true /\ effect o (content u) = Some (content u') /\
    forall d pre post, wf_doc d = true -> focus (d_val d) (place o) pre u post -> legal d o ->
      call o (text d) = Done (d_pre d ++ pre ++ render u' ++ post ++ d_post d).
Proof.
  intros Ha Hw Hg. destruct (op_writes_at o u Ha Hw Hg) as (u' & W & E & _ & H). exists u'. split; [exact W|]. split; [exact E|].
  intros d pre post Hd Hf L. specialize (H (place o) d pre post Hd Hf). rewrite move_here in H. exact (H L).
Qed.

Lemma modify_content_at t p pre u post v t' g : focus t p pre u post -> modify t p (fun _ => Some v) = Some t' ->
  g (content u) = Some (content v) -> d_modify (content t) p g = Some (content t').
Proof.
  intros Hf Hm Hg. rewrite modify_content with (f := fun _ => Some v); [rewrite Hm; reflexivity|].
  intros w Hl. rewrite (focus_lookup _ _ _ _ _ Hf) in Hl. injection Hl as <-. exact Hg.
Qed.
Lemma apart_sym p : forall t q, apart t p q -> apart t q p.
Proof.
  induction p as [|x p IH]; intros t [|y q] H; try contradiction H. cbn [apart] in *. intro Hs.
  assert (Hs' : same_step t x y) by (destruct t; cbn in *; congruence).
  destruct (H Hs') as (c & Hc & Ha). exists c. split; [|apply IH; exact Ha]. rewrite <- (d_child_same_step _ _ _ Hs'). exact Hc.
Qed.

(** In either order the same text, byte for byte. *)
Theorem ops_commute d o1 o2 c1 c2 : wf_doc d = true ->
  meaning o1 (content (d_val d)) = Some c1 -> meaning o2 (content (d_val d)) = Some c2 ->
  apart (content (d_val d)) (place o1) (place o2) ->
  legal d o1 -> legal d o2 ->
  (forall d1, wf_doc d1 = true -> call o1 (text d) = Done (text d1) -> content (d_val d1) = c1 -> legal d1 o2) ->
  (forall d2, wf_doc d2 = true -> call o2 (text d) = Done (text d2) -> content (d_val d2) = c2 -> legal d2 o1) ->
  exists out, run [o1; o2] (text d) = Some out /\ run [o2; o1] (text d) = Some out.
Proof.
  intros Hw M1 M2 Ha L1 L2 N1 N2. rewrite meaning_at in M1, M2.
  destruct (modify_focus _ _ _ _ M1) as (pr1 & u1 & po1 & F1 & G1). destruct (modify_focus _ _ _ _ M2) as (pr2 & u2 & po2 & F2 & G2).
  destruct (op_writes o1 u1 (legal_args _ _ L1) (focus_wf _ _ _ _ _ F1 (wf_doc_val _ Hw)) G1) as (v1 & V1 & E1 & W1).
  destruct (op_writes o2 u2 (legal_args _ _ L2) (focus_wf _ _ _ _ _ F2 (wf_doc_val _ Hw)) G2) as (v2 & V2 & E2 & W2).
  destruct (focus_modify _ _ _ _ _ (fun _ => Some v1) v1 F1 eq_refl) as (t1 & T1 & F1').
  destruct (focus_modify _ _ _ _ _ (fun _ => Some v2) v2 F2 eq_refl) as (t2 & T2 & F2').
  destruct (modify_swap _ _ _ _ _ _ _ T1 T2 Ha) as (t3 & T3 & T4).
  assert (WD : forall t p u v t', lookup (d_val d) p = Some u -> wf v = true -> modify (d_val d) p (fun _ => Some v) = Some t' ->
                 t = t' -> wf_doc (Doc (d_pre d) t (d_post d)) = true).
  { intros t p u v t' E V T ->. pose proof (modify_wf _ _ _ _ _ _ E eq_refl (wf_doc_val _ Hw) V T) as X.
    unfold wf_doc in *. cbn [d_pre d_val d_post]. nbool. repeat match goal with H : _ = true |- _ => rewrite H end. reflexivity. }
  pose proof (WD _ _ _ _ _ (focus_lookup _ _ _ _ _ F1) V1 T1 eq_refl) as Hw1.
  pose proof (WD _ _ _ _ _ (focus_lookup _ _ _ _ _ F2) V2 T2 eq_refl) as Hw2.
  assert (C1 : content t1 = c1).
  { pose proof (modify_content_at _ _ _ _ _ _ _ _ F1 T1 E1) as X. congruence. }
  assert (C2 : content t2 = c2).
  { pose proof (modify_content_at _ _ _ _ _ _ _ _ F2 T2 E2) as X. congruence. }
  pose proof (W1 d pr1 po1 Hw F1 L1) as R1. pose proof (W2 d pr2 po2 Hw F2 L2) as R2.
  assert (R1' : call o1 (text d) = Done (text (Doc (d_pre d) t1 (d_post d)))).
  { rewrite R1, (app_text (Doc (d_pre d) t1 (d_post d)) _ _ _ _ F1'). reflexivity. }
  assert (R2' : call o2 (text d) = Done (text (Doc (d_pre d) t2 (d_post d)))).
  { rewrite R2, (app_text (Doc (d_pre d) t2 (d_post d)) _ _ _ _ F2'). reflexivity. }
  assert (K2 : lookup t1 (place o2) = Some u2).
  { rewrite (lookup_modify_apart _ _ _ _ _ T1 Ha). exact (focus_lookup _ _ _ _ _ F2). }
  assert (Ha' : apart (content (d_val d)) (place o2) (place o1)) by (apply apart_sym; exact Ha).
  assert (K1 : lookup t2 (place o1) = Some u1).
  { rewrite (lookup_modify_apart _ _ _ _ _ T2 Ha'). exact (focus_lookup _ _ _ _ _ F1). }
  destruct (lookup_focus _ _ _ K2) as (pr3 & po3 & F3). destruct (lookup_focus _ _ _ K1) as (pr4 & po4 & F4).
  pose proof (W2 (Doc (d_pre d) t1 (d_post d)) pr3 po3 Hw1 F3 (N1 _ Hw1 R1' C1)) as R3.
  pose proof (W1 (Doc (d_pre d) t2 (d_post d)) pr4 po4 Hw2 F4 (N2 _ Hw2 R2' C2)) as R4.
  destruct (focus_modify _ _ _ _ _ (fun _ => Some v2) v2 F3 eq_refl) as (t5 & T5 & F5). cbn [d_val] in T5.
  destruct (focus_modify _ _ _ _ _ (fun _ => Some v1) v1 F4 eq_refl) as (t6 & T6 & F6). cbn [d_val] in T6.
  rewrite T3 in T5. injection T5 as <-. rewrite T4 in T6. injection T6 as <-.
  exists (text (Doc (d_pre d) t3 (d_post d))). cbn [run]. rewrite R1', R3, R2', R4.
  cbn [run d_pre d_post]. split; f_equal.
  - rewrite (app_text (Doc (d_pre d) t3 (d_post d)) _ _ _ _ F5). reflexivity.
  - rewrite (app_text (Doc (d_pre d) t3 (d_post d)) _ _ _ _ F6). reflexivity.
Qed.

Theorem plain_ops_commute d o1 o2 c1 c2 : wf_doc d = true -> plain_op o1 -> plain_op o2 ->
  meaning o1 (content (d_val d)) = Some c1 -> meaning o2 (content (d_val d)) = Some c2 ->
  apart (content (d_val d)) (place o1) (place o2) ->
  exists out, run [o1; o2] (text d) = Some out /\ run [o2; o1] (text d) = Some out.
Proof.
  intros Hw P1 P2 M1 M2 Ha.
  assert (L : forall o d, plain_op o -> legal d o) by (intros o e; destruct o; cbn; tauto).
  eapply ops_commute; eauto.
Qed.

(** ** Later calls that hide earlier ones *)
Lemma op_below d o p q c : wf_doc d = true -> legal d o -> meaning o (content (d_val d)) = Some c -> place o = p ++ q ->
  exists pre u post u', focus (d_val d) p pre u post /\ wf u' = true /\
    call o (text d) = Done (d_pre d ++ pre ++ render u' ++ post ++ d_post d).
Proof.
  intros Hw L M Hpl. rewrite meaning_at in M. destruct (modify_focus _ _ _ _ M) as (pr & v & po & F & G).
  destruct (op_writes o v (legal_args _ _ L) (focus_wf _ _ _ _ _ F (wf_doc_val _ Hw)) G) as (v' & V & E & W).
  rewrite (W d pr po Hw F L). clear W. rewrite Hpl in F. destruct (focus_split _ _ _ _ _ _ F) as (pre & u & post & pre2 & post2 & F1 & F2 & -> & ->).
  destruct (focus_modify _ _ _ _ _ (fun _ => Some v') v' F2 eq_refl) as (u' & M2 & F2').
  exists pre, u, post, u'. split; [exact F1|]. split.
  - eapply modify_wf with (f := fun _ => Some v'); [exact (focus_lookup _ _ _ _ _ F2)|reflexivity| |exact V|exact M2].
    exact (focus_wf _ _ _ _ _ F1 (wf_doc_val _ Hw)).
  - rewrite (focus_render _ _ _ _ _ F2'). f_equal. same_text.
Qed.

Theorem set_hides d o p q c new : wf_doc d = true -> legal d o -> meaning o (content (d_val d)) = Some c ->
  place o = p ++ q -> p <> [] ->
  exists out, call o (text d) = Done out /\ Set_ out new p = Set_ (text d) new p.
Proof.
  intros Hw L M Hpl Hp. destruct (op_below d o p q c Hw L M Hpl) as (pre & u & post & u' & F & Hu & R).
  eexists. split; [exact R|]. destruct (with_at d p pre u post u' Hw F Hu) as (d1 & Hw1 & Hp1 & Hp2 & F1 & <-).
  rewrite (set_present d p pre u post new Hw Hp F), (set_present d1 p pre u' post new Hw1 Hp F1), Hp1, Hp2. reflexivity.
Qed.

Theorem delete_hides d o p x q c : wf_doc d = true -> legal d o -> meaning o (content (d_val d)) = Some c ->
  place o = (p ++ [x]) ++ q ->
  exists out, call o (text d) = Done out /\ Delete out (p ++ [x]) = Delete (text d) (p ++ [x]).
Proof.
  intros Hw L M Hpl. destruct (op_below d o (p ++ [x]) q c Hw L M Hpl) as (pre & u & post & u' & F & Hu & R).
  eexists. split; [exact R|]. clear R L M Hpl.
  destruct (focus_split _ _ _ _ _ _ F) as (pre1 & C & post1 & pre2 & post2 & F1 & F2 & -> & ->).
  pose proof (focus_wf _ _ _ _ _ F1 (wf_doc_val _ Hw)) as HC.
  inversion F2 as [|w l1 e l2 x0 p0 pr0 v0 po0 Hx F3 E1 E2 E3 E4 E5|w l1 m l2 p0 pr0 v0 po0 Hk F3 E1 E2 E3 E4 E5]; subst; inversion F3; subst.
  - set (e' := Elem (e_pre e) u' (e_post e)).
    assert (H' : wf (JArr w (l1 ++ e' :: l2)) = true).
    { rewrite wf_arr, forallb_app in *. cbn [forallb] in *. nbool. unfold elem_ok in H1. nbool.
      unfold elem_ok at 2. cbn [e_pre e_val e_post e'].
      repeat match goal with H : _ = true |- _ => rewrite H end. reflexivity. }
    destruct (with_at d p pre1 _ post1 _ Hw F1 H') as (d1 & Hw1 & Hp1 & Hp2 & F4 & T).
    assert (T' : text d1 = d_pre d ++ (pre1 ++ arr_pre w l1 e ++ []) ++ render u' ++ (([] ++ arr_post e l2) ++ post1) ++ d_post d).
    { rewrite T, render_arr_split. unfold e', arr_pre, arr_post. cbn [e_pre e_val e_post]. same_text. }
    rewrite <- T', (delete_arr d1 p x w l1 e' l2 pre1 post1 Hw1 F4 Hx), (delete_arr d p x w l1 e l2 pre1 post1 Hw F1 Hx), Hp1, Hp2.
    unfold cut_elem, e'. cbn [e_pre e_post]. reflexivity.
  - set (m' := with_val m u').
    assert (H' : wf (JObj w (l1 ++ m' :: l2)) = true).
    { rewrite wf_obj, forallb_app in *. cbn [forallb] in *. nbool. unfold mem_ok in H1. nbool.
      unfold mem_ok at 2. cbn [m_pre m_key m_mid m_mid2 m_val m_post with_val m'].
      repeat match goal with H : _ = true |- _ => rewrite H end. reflexivity. }
    destruct (with_at d p pre1 _ post1 _ Hw F1 H') as (d1 & Hw1 & Hp1 & Hp2 & F4 & T).
    assert (T' : text d1 = d_pre d ++ (pre1 ++ obj_pre w l1 m ++ []) ++ render u' ++ (([] ++ obj_post m l2) ++ post1) ++ d_post d).
    { rewrite T, render_obj_split. unfold m', with_val, obj_pre, obj_kpre, obj_mid, obj_post. cbn [m_pre m_key m_mid m_mid2 m_val m_post]. same_text. }
    rewrite <- T'. change (m_key m) with (m_key m') at 1.
    rewrite (delete_obj d1 p w l1 m' l2 pre1 post1 Hw1 F4 Hk), (delete_obj d p w l1 m l2 pre1 post1 Hw F1 Hk), Hp1, Hp2.
    unfold cut_mem, m', with_val. cbn [m_pre m_key m_mid m_mid2 m_val m_post]. reflexivity.
Qed.

(** Removing two members of one object: the order does not matter for the content. *)
Lemma assoc_remove_swap {V} x y (ms : list (bytes * V)) : x <> y -> assoc_remove y (assoc_remove x ms) = assoc_remove x (assoc_remove y ms).
Proof.
  intro H. induction ms as [|[k v] ms IH]; cbn; [reflexivity|].
  destruct (bytes_eqb_spec k x) as [E|E], (bytes_eqb_spec k y) as [F|F]; try congruence; cbn;
    repeat match goal with
           | E : ?a = ?c |- context [bytes_eqb ?a ?c] => rewrite (proj2 (bytes_eqb_eq a c) E)
           | E : ?a <> ?c |- context [bytes_eqb ?a ?c] => rewrite (proj2 (bytes_eqb_neq a c) E)
           end; try reflexivity. rewrite IH. reflexivity.
Qed.
Lemma assoc_remove_other {V} x y (ms : list (bytes * V)) : x <> y -> assoc y (assoc_remove x ms) = assoc y ms.
Proof.
  intro H. induction ms as [|[k v] ms IH]; cbn; [reflexivity|].
  destruct (bytes_eqb_spec k x) as [E|E]; cbn; [|rewrite IH; reflexivity].
  destruct (bytes_eqb_spec k y) as [F|F]; [congruence|reflexivity].
Qed.

Lemma d_modify_modify t p f g t1 : d_modify t p f = Some t1 ->
  d_modify t1 p g = d_modify t p (fun u => match f u with Some v => g v | None => None end).
Proof.
  revert t t1. induction p as [|x p IH]; intros t t1 H; cbn [d_modify] in *; [rewrite H; reflexivity|].
  destruct (d_child t x) as [c|] eqn:E; [|discriminate]. destruct (d_modify c p f) as [c1|] eqn:E1; [|discriminate]. injection H as <-.
  rewrite (d_child_set_same _ _ _ _ E), (IH _ _ E1). clear E1.
  destruct (d_modify c p (fun u => match f u with Some v => g v | None => None end)) as [c2|]; [|reflexivity]. f_equal.
  clear. destruct t as [s|s|ds|ms]; cbn [d_set_child]; try reflexivity.
  - destruct (atoi x) as [z|] eqn:E; cbn [d_set_child]; rewrite E; [|reflexivity]. rewrite set_nth_nth. reflexivity.
  - rewrite assoc_set_set. reflexivity.
Qed.

Lemma d_put_some p : forall t v, d_lookup t p <> None -> d_modify t p (fun _ => Some v) <> None.
Proof.
  induction p as [|x p IH]; intros t v H; cbn in *; [discriminate|]. destruct (d_child t x) as [c|]; [|congruence].
  specialize (IH c v H). destruct (d_modify c p _); [discriminate|congruence].
Qed.

Theorem deletes_commute d p x y w ms : wf_doc d = true -> lookup (d_val d) p = Some (JObj w ms) -> x <> y ->
  find_mem x ms <> None -> find_mem y ms <> None ->
  exists da db, run [ODelete p x; ODelete p y] (text d) = Some (text da) /\
    run [ODelete p y; ODelete p x] (text d) = Some (text db) /\
    wf_doc da = true /\ wf_doc db = true /\ content (d_val da) = content (d_val db).
Proof.
  intros Hw Hl Hxy Hx Hy.
  assert (K : forall a c, a <> c -> find_mem a ms <> None -> find_mem c ms <> None ->
    exists d', run [ODelete p a; ODelete p c] (text d) = Some (text d') /\ wf_doc d' = true /\
      d_modify (content (d_val d)) p (fun _ => Some (DObj (assoc_remove c (assoc_remove a (map mpair ms))))) = Some (content (d_val d'))).
  { intros a c Hac Ha Hc. destruct (lookup_focus _ _ _ Hl) as (pre & post & Hf).
    assert (Ea : assoc a (map mpair ms) <> None) by (rewrite assoc_mpair; destruct (find_mem a ms); [discriminate|congruence]).
    assert (Ec : assoc c (map mpair ms) <> None) by (rewrite assoc_mpair; destruct (find_mem c ms); [discriminate|congruence]).
    assert (Hd : d_remove a (content (JObj w ms)) = Some (DObj (assoc_remove a (map mpair ms)))).
    { cbn [content d_remove]. fold mpair. destruct (assoc a (map mpair ms)); [reflexivity|congruence]. }
    destruct (d_modify (content (d_val d)) p (d_remove a)) as [c1|] eqn:M1.
    2:{ exfalso. revert M1. rewrite (d_modify_ext_at _ _ _ (fun _ => Some (DObj (assoc_remove a (map mpair ms)))) (content (JObj w ms)));
          [|rewrite lookup_content, Hl; reflexivity|exact Hd].
        apply d_put_some. rewrite lookup_content, Hl. discriminate. }
    destruct (delete_ok d p a c1 Hw M1) as (d1 & R1 & W1 & _ & _ & E1).
    assert (M2 : d_modify (content (d_val d1)) p (d_remove c) = d_modify (content (d_val d)) p (fun _ => Some (DObj (assoc_remove c (assoc_remove a (map mpair ms)))))).
    { rewrite E1, (d_modify_modify _ _ _ _ _ M1). eapply d_modify_ext_at; [rewrite lookup_content, Hl; reflexivity|].
      rewrite Hd. cbn [d_remove]. rewrite assoc_remove_other by exact Hac. destruct (assoc c (map mpair ms)); [reflexivity|congruence]. }
    destruct (d_modify (content (d_val d)) p (fun _ => Some (DObj (assoc_remove c (assoc_remove a (map mpair ms)))))) as [c2|] eqn:M3.
    2:{ exfalso. revert M3. apply d_put_some. rewrite lookup_content, Hl. discriminate. }
    destruct (delete_ok d1 p c c2 W1 M2) as (d2 & R2 & W2 & _ & _ & E2).
    exists d2. cbn [run call]. rewrite R1, R2. split; [reflexivity|]. split; [exact W2|]. rewrite E2. reflexivity. }
  destruct (K x y Hxy Hx Hy) as (da & Ra & Wa & Ea). destruct (K y x (fun e => Hxy (eq_sym e)) Hy Hx) as (db & Rb & Wb & Eb).
  exists da, db. split; [exact Ra|]. split; [exact Rb|]. split; [exact Wa|]. split; [exact Wb|].
  rewrite (assoc_remove_swap x y) in Ea by exact Hxy. congruence.
Qed.
