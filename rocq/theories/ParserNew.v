(** GetNew after updates. *)
From Coq Require Import String.
From Verif Require Import GoStd Json Spec SpecProofs Domains Core Skip Focus CoreProofs Errors Api ApiProofs Updates Ops History Iter SpecParser Parser ParserProofs ParserGet ParserUpd ParserOps ParserInsert SpecTree TreeProofs.

Local Open Scope N_scope.

(** ** The value of the root node never changes *)
Definition root_kept (p : parser) (r : pres) : Prop := forall p' e, r = PRet p' e -> n_value (p_core p') = n_value (p_core p).
Lemma upd_value x q f n : n_value (upd_node (x :: q) f n) = n_value n.
Proof. destruct n; reflexivity. Qed.
Lemma upd_value' q f n : (forall m, n_value (f m) = n_value m) -> n_value (upd_node q f n) = n_value n.
Proof. intro H. destruct q; [apply H|apply upd_value]. Qed.
Lemma append_value c n : n_value (append_node c n) = n_value n. Proof. destruct n; reflexivity. Qed.
Lemma down_value d n : n_value (with_down d n) = n_value n. Proof. destruct n; reflexivity. Qed.
Lemma label_value d n : n_value (with_label d n) = n_value n. Proof. destruct n; reflexivity. Qed.
Lemma drop_value d n : n_value (drop_label d n) = n_value n. Proof. destruct n; reflexivity. Qed.

Lemma refresh_root ps : Forall (fun q => q <> []) ps -> forall p p' e, (refresh ps p = PRet p' e \/ refresh_quiet ps p = PRet p' e) -> n_value (p_core p') = n_value (p_core p).
Proof.
  induction 1 as [|q ps Hq _ IH]; intros p p' e H; cbn [refresh refresh_quiet] in H; [destruct H as [H|H]; injection H as <- _; reflexivity|].
  destruct q as [|x q]; [contradiction|].
  destruct (Get (p_json p) (x :: q)) as [v|e0|].
  - rewrite (IH _ _ _ H). apply upd_value.
  - destruct H as [H|H]; [injection H as <- _; apply upd_value|]. rewrite (IH _ _ _ (or_intror H)). apply upd_value.
  - destruct H; discriminate.
Qed.
Lemma ancestors_nonempty q : Forall (fun a => a <> []) (ancestors q).
Proof.
  induction q as [|x q IH]; cbn [ancestors]; [constructor|]. apply Forall_app. split; [|repeat constructor; discriminate].
  apply Forall_map. eapply Forall_impl; [|exact IH]. discriminate.
Qed.
Lemma tl_nonempty (l : list (list bytes)) : Forall (fun a => a <> []) l -> Forall (fun a => a <> []) (tl l).
Proof. intro H. destruct H; [constructor|assumption]. Qed.
Lemma removelast_nonempty (l : list (list bytes)) : Forall (fun a => a <> []) l -> Forall (fun a => a <> []) (removelast l).
Proof. induction 1 as [|x l Hx Hl IH]; [constructor|]. cbn [removelast]. destruct l; [constructor|]. constructor; assumption. Qed.

Lemma kept_bind A p (r : res A) k : (forall a, root_kept p (k a)) -> root_kept p (p_bind p r k).
Proof. intros H p' e E. destruct r; cbn [p_bind] in E; [eapply H; exact E|injection E as <- _; reflexivity|discriminate]. Qed.
Lemma kept_pure A p (r : res A) k : (forall a, root_kept p (k a)) -> root_kept p (p_pure r k).
Proof. intros H p' e E. destruct r; cbn [p_pure] in E; try discriminate. eapply H; exact E. Qed.
Lemma kept_ret p p1 e : n_value (p_core p1) = n_value (p_core p) -> root_kept p (PRet p1 e).
Proof. intros H p' e' E. injection E as <- _. exact H. Qed.
Lemma kept_if p (c : bool) r s : root_kept p r -> root_kept p s -> root_kept p (if c then r else s).
Proof. destruct c; auto. Qed.
Lemma kept_trans p p1 r : n_value (p_core p1) = n_value (p_core p) -> root_kept p1 r -> root_kept p r.
Proof. intros E H p' e H'. rewrite <- E. eapply H. exact H'. Qed.
Lemma kept_take p p1 u k : n_value (p_core p1) = n_value (p_core p) -> (forall p2, p_core p2 = p_core p1 -> root_kept p2 (k p2)) -> root_kept p (take_text p1 u k).
Proof. intros E H. unfold take_text. destruct u as [o|o e|]; [| |intros ? ? ?; discriminate]; (eapply kept_trans; [|apply H; reflexivity]; exact E). Qed.
Lemma kept_fail p p1 u k : n_value (p_core p1) = n_value (p_core p) -> (forall p2, p_core p2 = p_core p1 -> root_kept p2 (k p2)) -> root_kept p (take_or_fail p1 u k).
Proof.
  intros E H. unfold take_or_fail. destruct u as [o|o e|]; [|apply kept_ret; exact E|intros ? ? ?; discriminate].
  eapply kept_trans; [|apply H; reflexivity]; exact E.
Qed.
Lemma kept_refresh ps p : Forall (fun q => q <> []) ps -> root_kept p (refresh ps p).
Proof. intros H p' e E. eapply refresh_root; [exact H|left; exact E]. Qed.
Lemma kept_quiet ps p : Forall (fun q => q <> []) ps -> root_kept p (refresh_quiet ps p).
Proof. intros H p' e E. eapply refresh_root; [exact H|right; exact E]. Qed.
Lemma kept_panic p : root_kept p PPanic. Proof. intros ? ? ?; discriminate. Qed.
Lemma kept_put p p1 t k : n_value (p_core p1) = n_value (p_core p) -> (forall p2, p_core p2 = p_core p1 -> root_kept p2 (k p2)) -> root_kept p (put_before_end p1 t k).
Proof. intros E H. unfold put_before_end. apply kept_pure. intro j. eapply kept_trans; [|apply H; reflexivity]. exact E. Qed.

Ltac kept := repeat first
  [ apply kept_if | apply kept_panic | apply kept_bind; intros | apply kept_pure; intros
  | apply kept_take; [|intros] | apply kept_fail; [|intros] | apply kept_put; [|intros]
  | apply kept_refresh | apply kept_quiet | apply kept_ret ];
  cbn [p_core]; rewrite ?append_value, ?down_value, ?upd_value; try reflexivity; auto using ancestors_nonempty, tl_nonempty, removelast_nonempty.

Theorem call_root o p : root_kept p (p_call o p).
Proof.
  destruct o as [q v|q x|q v|q k v|q z v|q x k|q k v]; cbn [p_call].
  - unfold P_Set. destruct q as [|x q]; kept.
  - unfold P_Delete. destruct (q ++ [x]) as [|y r]; kept. apply upd_value'. intro. apply drop_value.
  - unfold P_Add. destruct (render v); [kept|]. apply kept_bind. intro j. destruct q as [|x q]; kept.
  - unfold P_AddKeyValue. destruct k; [kept|]. apply kept_bind. intro j. destruct q as [|x q]; kept.
  - unfold P_Insert. destruct (render v); [kept|]. apply kept_bind. intro j. destruct q as [|x q]; kept.
  - unfold P_SetKey. destruct (q ++ [x]) as [|y r]; [kept|]. destruct k; kept.
  - kept.
Qed.

(** ** What the nodes below a value show, taken together *)
Definition told (v : jv) (n : node) : Prop := exists t v', sub n = Ok t /\ shows t v' /\ content v' = content v.

Lemma forall2_nth (A B : Type) (R : A -> B -> Prop) xs : forall ys, length ys = length xs ->
  (forall i x y, nth_error xs i = Some x -> nth_error ys i = Some y -> R x y) -> Forall2 R xs ys.
Proof.
  induction xs as [|x xs IH]; intros [|y ys] Hl H; try discriminate; constructor; [exact (H O x y eq_refl eq_refl)|].
  apply IH; [cbn in Hl; lia|]. intros i. exact (H (S i)).
Qed.

Lemma told_els els ns : Forall2 (fun e n => told (e_val e) n) els ns ->
  exists es, Forall2 (fun d t => sub d = Ok t) ns (map elem_text es) /\ forallb elem_ok es = true /\
    map (fun e => content (e_val e)) es = map (fun e => content (e_val e)) els.
Proof.
  induction 1 as [|e n els ns (t & v' & Hs & (Hv & u & w & Hu & Hw & -> & _) & Hc) _ (es & H1 & H2 & H3)]; [exists []; repeat constructor|].
  exists (Elem u v' w :: es). cbn [map forallb e_val]. split; [constructor; assumption|]. split; [|f_equal; assumption].
  unfold elem_ok. cbn [e_pre e_val e_post]. rewrite Hu, Hv, Hw. exact H2.
Qed.
Lemma told_mems ms ns : Forall2 (fun m n => told (m_val m) n) ms ns -> map n_label ns = map m_key ms -> forallb mem_ok ms = true ->
  exists ts es, Forall2 (fun d t => sub d = Ok t) ns ts /\ forallb mem_ok es = true /\
    map (fun x => packed 123 (n_label (fst x)) (snd x) ++ [44]) (combine ns ts) = map (fun x => x ++ [44]) (map mem_text es) /\
    map (fun m => (m_key m, content (m_val m))) es = map (fun m => (m_key m, content (m_val m))) ms.
Proof.
  induction 1 as [|m n ms ns (t & v' & Hs & (Hv & u & w & Hu & Hw & Ht & _) & Hc) _ IH]; intros Hl Hok; [exists [], []; repeat constructor|].
  cbn [map forallb] in *. injection Hl as Hl1 Hl. nbool. destruct IH as (ts & es & H1 & H2 & H3 & H4); [assumption..|].
  exists (t :: ts), (Mem [] (m_key m) [] u v' w :: es). cbn [map forallb combine fst snd m_key m_val]. split; [constructor; assumption|]. split; [|split].
  - unfold mem_ok at 1. cbn [m_pre m_key m_mid m_mid2 m_val m_post]. rewrite Hu, Hv, Hw, H2. unfold mem_ok in *. nbool.
    replace (str_ok (m_key m)) with true by (symmetry; assumption). reflexivity.
  - f_equal; [|exact H3]. rewrite Hl1, Ht. unfold packed, packKeyValue, mem_text. cbn [N.eqb Pos.eqb m_pre m_key m_mid m_mid2 m_val m_post app].
    rewrite app_nil_r. reflexivity.
  - f_equal; [|exact H4]. f_equal. exact Hc.
Qed.

(** The first byte of a container *)
Definition bracket (v : jv) : N := match v with JArr _ _ => 91 | _ => 123 end.

Lemma kids_told v l r ns : (forall x c n, lstep v x = Some c -> wf c = true -> single_keys c = true -> agreesG counted c n -> told c n) ->
  container v = true -> wf v = true -> single_keys v = true -> kids counted v ns -> ns <> [] ->
  exists v', sub (Node l (bracket v :: r) ns) = Ok (render v') /\ wf v' = true /\ content v' = content v.
Proof.
  intros IH Hcv Hw Hs (H1 & H2 & H3) Hne.
  unfold sub. cbn [n_down]. replace (match ns with [] => Ok (n_value (Node l (bracket v :: r) ns)) | _ => dive (Node l (bracket v :: r) ns) end)
    with (dive (Node l (bracket v :: r) ns)) by (destruct ns; [contradiction|reflexivity]).
  destruct v as [s|s|w els|w ms]; try discriminate Hcv; cbn [bracket counted single_keys] in *.
  - destruct H3 as [->|[Hlen Hpos]]; [contradiction|]. rewrite wf_arr in Hw. nbool.
    destruct (told_els els ns) as (es & G1 & G2 & G3).
    { apply forall2_nth; [exact Hlen|]. intros i e n He Hn.
      pose proof (find_node_nth ns (positional_nodup ns Hpos) i n Hn) as Hf.
      destruct (H1 _ _ Hf) as (c & Hc & Ha). pose proof Hc as Hc'. cbn [lstep] in Hc.
      destruct (nth_label 0 (n_label n) els) as [e'|] eqn:En; [|discriminate]. injection Hc as <-.
      apply nth_label_spec in En. destruct En as (j & Hj & Ej). rewrite (Hpos _ _ Hn) in Ej.
      assert (j = i) by (apply itoa_inj in Ej; lia). subst j. rewrite He in Hj. injection Hj as <-.
      apply nth_error_In in He. rewrite forallb_forall in *.
      apply (IH (n_label n)); [exact Hc'| |auto|exact Ha].
      match goal with H : forall x, In x els -> elem_ok x = true |- _ => specialize (H e He); unfold elem_ok in H; nbool; assumption end. }
    exists (JArr [] es). rewrite (dive_down 91 l _ _ _ G1), packed_arr by (apply forall2_length in G1; exact G1).
    rewrite removelast_join; [|apply forall2_length in G1; destruct ns; [contradiction|]; destruct es; [discriminate G1|discriminate]].
    split; [rewrite render_arr; reflexivity|]. split; [rewrite wf_arr; exact G2|]. cbn [content]. f_equal. exact G3.
  - rewrite wf_obj in Hw. nbool. rewrite all_differ_nodup in *.
    destruct (told_mems ms ns) as (ts & es & G1 & G2 & G3 & G4); [|exact H3|assumption|].
    { assert (Hlen : length ns = length ms) by (rewrite <- (map_length n_label), H3, map_length; reflexivity).
      assert (Hnd : NoDup (map n_label ns)) by (rewrite H3; assumption).
      apply forall2_nth; [exact Hlen|]. intros i m n Hm Hn.
      assert (El : n_label n = m_key m).
      { pose proof (map_nth_error n_label _ _ Hn) as E1. pose proof (map_nth_error m_key _ _ Hm) as E2. rewrite H3 in E1. congruence. }
      pose proof (find_node_nth ns Hnd i n Hn) as Hf. destruct (H1 _ _ Hf) as (c & Hc & Ha). pose proof Hc as Hc'. cbn [lstep] in Hc.
      apply nth_error_In in Hm. rewrite El, (find_mem_single m ms) in Hc by assumption. injection Hc as <-.
      rewrite forallb_forall in *. apply (IH (n_label n)); [exact Hc'| |auto|exact Ha].
      match goal with H : forall x, In x ms -> mem_ok x = true |- _ => specialize (H m Hm); unfold mem_ok in H; nbool; assumption end. }
    exists (JObj [] es). rewrite (dive_down 123 l _ _ _ G1), G3.
    rewrite removelast_join; [|destruct es; [|discriminate]; destruct ms; [destruct ns; [contradiction|discriminate H3]|discriminate G4]].
    split; [rewrite render_obj; reflexivity|]. split; [rewrite wf_obj; exact G2|]. cbn [content]. f_equal. exact G4.
Qed.

Lemma told_step v : (forall x c n, lstep v x = Some c -> wf c = true -> single_keys c = true -> agreesG counted c n -> told c n) ->
  forall n, wf v = true -> single_keys v = true -> agreesG counted v n -> told v n.
Proof.
  intros IH n Hw Hs Ha. apply agrees_kids in Ha. destruct Ha as [Hv Hk]. destruct n as [l t ns]. cbn [n_value n_down] in *.
  destruct ns as [|n0 ns]; [exists t, v; auto|].
  destruct (container v) eqn:Hc.
  - destruct Hv as (_ & u & w & _ & _ & -> & Hb). destruct (Hb Hc) as [-> ->].
    assert (E : exists r, [] ++ render v ++ [] = bracket v :: r) by (destruct v; try discriminate Hc; eexists; reflexivity). destruct E as (r & ->).
    destruct (kids_told v l r (n0 :: ns) IH Hc Hw Hs Hk ltac:(discriminate)) as (v' & G1 & G2 & G3).
    exists (render v'), v'. split; [exact G1|]. split; [apply shows_render; exact G2|exact G3].
  - exfalso. destruct Hk as (H1 & _). destruct (H1 (n_label n0) n0) as (c & Hc' & _); [cbn [find_node]; rewrite (proj2 (bytes_eqb_eq _ _) eq_refl); reflexivity|].
    destruct v; discriminate.
Qed.
Lemma all_told v : forall n, wf v = true -> single_keys v = true -> agreesG counted v n -> told v n.
Proof.
  induction v as [s|s|w els IH|w ms IH] using jv_ind'; apply told_step; intros x c n Hc; [discriminate|discriminate| |]; cbn [lstep] in Hc.
  - destruct (nth_label 0 x els) as [e|] eqn:E; [|discriminate]. injection Hc as <-. apply nth_label_spec in E. destruct E as (j & Hj & _).
    apply nth_error_In in Hj. rewrite Forall_forall in IH. exact (IH e Hj n).
  - destruct (find_mem x ms) as [m|] eqn:E; [|discriminate]. injection Hc as <-. apply find_mem_split in E. destruct E as (_ & l1 & l2 & -> & _).
    rewrite Forall_forall in IH. exact (IH m ltac:(apply in_app_iff; right; left; reflexivity) n).
Qed.

(** ** The root keeps its kind *)
Definition d_bracket (t : jd) : N := match t with DArr _ => 91 | DObj _ => 123 | _ => 0 end.
Lemma modify_kind t q f t' : (forall s, f t = Some s -> q = [] -> d_bracket s = d_bracket t) -> d_modify t q f = Some t' -> d_bracket t' = d_bracket t.
Proof.
  intro H. destruct q as [|x q]; cbn [d_modify]; [intro E; apply H; [exact E|reflexivity]|].
  destruct (d_child t x); [|discriminate]. destruct (d_modify j q f); [|discriminate]. intro E. injection E as <-.
  destruct t; cbn [d_set_child]; try reflexivity. destruct (atoi x); reflexivity.
Qed.
Lemma meaning_kind d o t t' : legal d o -> meaning o t = Some t' -> d_bracket t' = d_bracket t.
Proof.
  destruct o; cbn [legal meaning]; intro Hl; apply modify_kind; intros s Hs Hq; try (exfalso; exact (proj1 Hl Hq)).
  all: destruct t; try discriminate Hs; cbn in Hs;
    repeat match type of Hs with context [match ?x with _ => _ end] => destruct x; try discriminate Hs end; injection Hs as <-; reflexivity.
Qed.

(** ** Histories without Insert *)
Lemma plain_history i d ops c' : p_lawful i d ops c' -> i = false -> forall p, p_holds counted p d ->
  exists d' p', run ops (text d) = Some (text d') /\ p_run ops p = Some p' /\ p_holds counted p' d' /\ content (d_val d') = c' /\
    n_value (p_core p') = n_value (p_core p) /\ d_bracket c' = d_bracket (content (d_val d)).
Proof.
  induction 1 as [i d|i d o ops c1 c2 Hl Hpl Hm _ IH|d q z v ops c1 c2 Hl Hpl Hm _ IH]; intros Hi p Hp; [| |discriminate].
  - exists d, p. repeat split; apply Hp.
  - destruct (call_follows counted counted_closed p d o c1 Hp Hl Hpl Hm) as (d1 & p1 & Hc & Hpc & Hp1 & (Hw1 & _ & _ & Hc1)).
    cbn [run p_run]. rewrite Hc, Hpc. destruct (IH d1 Hw1 Hc Hc1 Hi p1 Hp1) as (d' & p' & H1 & H2 & H3 & H4 & H5 & H6).
    exists d', p'. split; [exact H1|]. split; [exact H2|]. split; [exact H3|]. split; [exact H4|]. split.
    + rewrite H5. exact (call_root o p p1 _ Hpc).
    + rewrite H6, Hc1. exact (meaning_kind d o _ _ Hl Hm).
Qed.

Lemma bracket_content v : container v = true -> d_bracket (content v) = bracket v.
Proof. destruct v; try discriminate; reflexivity. Qed.

Theorem history_get_new d ops c' : wf_doc d = true -> container (d_val d) = true -> p_lawful false d ops c' ->
  exists p p' d', Parse (text d) = Ok p /\ p_run ops p = Some p' /\ run ops (text d) = Some (text d') /\
    wf_doc d' = true /\ content (d_val d') = c' /\
    forall q v, lookup (d_val d') q = Some v -> straight (d_val d') q = true -> single_keys v = true ->
      (q = [] -> hollow v = false /\ lonely v = false) ->
      exists v', P_GetNew p' q = Ok (bare v') /\ wf v' = true /\ content v' = content v.
Proof.
  intros Hw Hc Hl. destruct (parse_agrees d Hw Hc) as (n & Hp & Ha). apply agrees_kids in Ha. destruct Ha as [Hv Hk].
  destruct (plain_history _ _ _ _ Hl eq_refl _ (conj (eq_refl : p_json (Par n (text d)) = _) (conj Hw Hk))) as (d' & p' & H1 & H2 & H3 & H4 & H5 & H6).
  exists (Par n (text d)), p', d'. split; [exact Hp|]. split; [exact H2|]. split; [exact H1|]. destruct H3 as (_ & Hw' & Hk'). split; [exact Hw'|]. split; [exact H4|].
  intros q v Hlk Hst Hsk Hroot. destruct (walk_found counted q _ _ _ Hk' Hlk Hst) as (m & Hm & Ham & Hkm). rewrite get_new_sub, Hm.
  assert (Hwv : wf v = true) by (destruct (lookup_focus _ _ _ Hlk) as (pre & post & HF); eapply focus_wf; [exact HF|apply wf_doc_val; exact Hw']).
  destruct q as [|x q].
  - cbn [lookup n_walk] in *. injection Hlk as <-. injection Hm as <-. destruct (Hroot eq_refl) as [Hh Hlo].
    assert (Hcd : container (d_val d') = true) by (destruct (d_val d'); [discriminate Hh|discriminate Hh|reflexivity|reflexivity]).
    rewrite <- H4, !bracket_content in H6 by assumption.
    destruct Hv as (_ & u & w & _ & _ & Ev & Hb). destruct (Hb Hc) as [-> ->]. cbn [p_core] in H5. rewrite Ev in H5. clear Ev Hb Ham.
    assert (E : exists r, [] ++ render (d_val d) ++ [] = bracket (d_val d) :: r) by (destruct (d_val d); try discriminate Hc; eexists; reflexivity).
    destruct E as (r & E). rewrite E in H5. destruct (p_core p') as [l t ns]. cbn [n_value n_down] in *. subst t. rewrite <- H6.
    destruct (kids_told (d_val d') l r ns) as (v' & G1 & G2 & G3); [|exact Hcd|exact Hwv|exact Hsk|exact Hk'| |].
    + intros. apply all_told; assumption.
    + intros ->. destruct Hk' as (_ & K2 & _).
      assert (EX : exists x c, lstep (d_val d') x = Some c).
      { destruct (d_val d') as [s|s|w0 [|e els]|w0 [|m0 ms]]; try discriminate Hh; cbn [lstep nth_label].
        - exists (itoa 0). rewrite (proj2 (bytes_eqb_eq _ _) eq_refl). eexists. reflexivity.
        - exists (m_key m0). unfold find_mem. cbn [find]. rewrite (proj2 (bytes_eqb_eq _ _) eq_refl). eexists. reflexivity. }
      destruct EX as (x & c & EX). rewrite (K2 x c EX eq_refl) in Hlo. discriminate.
    + exists v'. rewrite G1. cbn [bind]. split; [apply clean_render; exact G2|]. auto.
  - destruct (all_told v m Hwv Hsk (Ham ltac:(discriminate))) as (t & v' & G1 & G2 & G3). rewrite G1. cbn [bind].
    exists v'. split; [apply shows_clean; exact G2|]. split; [apply G2|exact G3].
Qed.
