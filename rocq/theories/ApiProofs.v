(** Proofs about the interpreter functions of Api.v. *)
From Coq Require Import String.
From Verif Require Import GoStd Json Core Skip Focus CoreProofs CoreNeg Errors Api SpecProofs.

Local Open Scope N_scope.

(** ** The bytes next to a value *)

Definition noq (pre : bytes) : Prop := exists p c, pre = p ++ [c] /\ c <> 34.

Lemma noq_snoc p c : c <> 34 -> noq (p ++ [c]).
Proof. intro H. exists p, c. auto. Qed.

Lemma noq_app pre s : noq pre -> Forall (fun c => c <> 34) s -> noq (pre ++ s).
Proof.
  intros H Hs. destruct s as [|c s] using rev_ind; [rewrite app_nil_r; exact H|].
  clear IHs. apply Forall_app in Hs. destruct Hs as [_ Hs]. inversion Hs; subst.
  rewrite app_assoc. apply noq_snoc. assumption.
Qed.

Lemma noq_ws pre w : noq pre -> ws_ok w = true -> noq (pre ++ w).
Proof.
  intros H Hw. apply noq_app; [exact H|]. apply ws_ok_Forall in Hw. eapply Forall_impl; [|exact Hw].
  intros c Hc. apply ws_plain in Hc. destruct Hc as [Hc _]. apply plain_neq in Hc. tauto.
Qed.

Lemma noq_jpre pre l : noq pre -> noq (pre ++ jpre l).
Proof.
  intro H. destruct l as [|x l] using rev_ind; [rewrite app_nil_r; exact H|].
  rewrite jpre_app. unfold jpre at 2. cbn [map concat]. rewrite app_nil_r, !app_assoc.
  apply noq_snoc. discriminate.
Qed.

Lemma noq_arr_pre pre w l1 e : ws_ok w = true -> ws_ok (e_pre e) = true -> noq (pre ++ arr_pre w l1 e).
Proof.
  intros Hw He. unfold arr_pre.
  replace (pre ++ 91 :: w ++ jpre (map elem_text l1) ++ e_pre e)
    with ((((pre ++ [91]) ++ w) ++ jpre (map elem_text l1)) ++ e_pre e) by same_text.
  apply noq_ws; [|assumption]. apply noq_jpre. apply noq_ws; [|assumption]. apply noq_snoc. discriminate.
Qed.

Lemma noq_obj_pre pre w l1 m : ws_ok (m_mid2 m) = true -> noq (pre ++ obj_pre w l1 m).
Proof.
  intro Hw. unfold obj_pre, obj_mid.
  replace (pre ++ obj_kpre w l1 m ++ m_key m ++ 34 :: m_mid m ++ 58 :: m_mid2 m)
    with ((pre ++ obj_kpre w l1 m ++ m_key m ++ 34 :: m_mid m ++ [58]) ++ m_mid2 m) by same_text.
  apply noq_ws; [|assumption].
  replace (pre ++ obj_kpre w l1 m ++ m_key m ++ 34 :: m_mid m ++ [58])
    with ((pre ++ obj_kpre w l1 m ++ m_key m ++ 34 :: m_mid m) ++ [58]) by same_text.
  apply noq_snoc. discriminate.
Qed.

Lemma terminated_noq post : terminated post -> exists c r, post = c :: r /\ c <> 34.
Proof.
  intros (c & r & -> & H). exists c, r. split; [reflexivity|]. intros ->. discriminate.
Qed.

Lemma focus_ends t p pre v post : focus t p pre v post -> wf t = true -> p <> [] ->
  (forall P, noq (P ++ pre)) /\ (forall Q, terminated (post ++ Q)).
Proof.
  induction 1 as [v|w l1 e l2 x p pre v post Hx Hf IH|w l1 m l2 p pre v post Hk Hf IH]; intros Hw Hp.
  - congruence.
  - rewrite wf_arr, forallb_app in Hw. cbn [forallb] in Hw. nbool.
    assert (Hoke := H1). unfold elem_ok in H1. nbool.
    destruct p as [|y p].
    + inversion Hf; subst. rewrite app_nil_r. cbn [app]. split; intros.
      * apply noq_arr_pre; assumption.
      * apply term_arr. assumption.
    + destruct (IH ltac:(assumption) ltac:(discriminate)) as [I1 I2]. split; intros.
      * rewrite app_assoc. apply I1.
      * rewrite <- app_assoc. apply I2.
  - rewrite wf_obj, forallb_app in Hw. cbn [forallb] in Hw. nbool.
    assert (Hokm := H1). unfold mem_ok in H1. nbool.
    destruct p as [|y p].
    + inversion Hf; subst. rewrite app_nil_r. cbn [app]. split; intros.
      * apply noq_obj_pre; assumption.
      * apply term_obj. assumption.
    + destruct (IH ltac:(assumption) ltac:(discriminate)) as [I1 I2]. split; intros.
      * rewrite app_assoc. apply I1.
      * rewrite <- app_assoc. apply I2.
Qed.

Lemma text_focus d p pre v post : focus (d_val d) p pre v post ->
  text d = (d_pre d ++ pre) ++ render v ++ (post ++ d_post d).
Proof. intro H. unfold text. rewrite (focus_render _ _ _ _ _ H). same_text. Qed.

Lemma wf_doc_val d : wf_doc d = true -> wf (d_val d) = true.
Proof. unfold wf_doc. intro H. nbool. assumption. Qed.

Lemma bare_string s : bare (JString s) = s. Proof. reflexivity. Qed.

Lemma span_render v : render v = (match v with JString _ => [34] | _ => [] end) ++ bare v ++
                                 (match v with JString _ => [34] | _ => [] end).
Proof. destruct v; cbn [bare app]; rewrite ?app_nil_r; reflexivity. Qed.

(** ** Get *)
Theorem get_present d p v :
  wf_doc d = true -> p <> [] -> lookup (d_val d) p = Some v -> Get (text d) p = Ok (bare v).
Proof.
  intros Hw Hp Hl. destruct (lookup_focus _ _ _ Hl) as (pre & post & Hf).
  destruct (core_present d p pre v post Hw Hp Hf) as (ks & Hc). specialize (Hc false). cbv iota in Hc.
  unfold Get. destruct p as [|x p]; [congruence|]. rewrite Hc. cbn [bind].
  pose proof (text_focus _ _ _ _ _ Hf) as Ht.
  eapply slice_app_eq with (p := (d_pre d ++ pre) ++ match v with JString _ => [34] | _ => [] end)
    (r := (match v with JString _ => [34] | _ => [] end) ++ post ++ d_post d).
  - rewrite Ht, span_render. same_text.
  - destruct v; cbn [qoff]; len.
  - destruct v; cbn [qoff]; len.
Qed.

(** ** Set *)
Lemma set_span_spec json new P v Q :
  noq P -> json = P ++ render v ++ Q ->
  set_span json new (length P + qoff v)%nat (length P + qoff v + length (bare v))%nat = Done (P ++ new ++ Q).
Proof.
  intros (p & c & Hp & Hc) Hj. unfold set_span.
  assert (Hns : qoff v = O -> render v = bare v -> 
    pbind (at_pred json (length P + 0)) (fun c =>
      if c =? 34 then pbind (at_ json (length P + 0 + length (bare v))) (fun d =>
        if d =? 34 then done_replace json new (pred (length P + 0)) (S (length P + 0 + length (bare v)))
        else done_replace json new (length P + 0) (length P + 0 + length (bare v)))
      else done_replace json new (length P + 0) (length P + 0 + length (bare v))) = Done (P ++ new ++ Q)).
  { intros _ Hb. rewrite Nat.add_0_r. replace (at_pred json (length P)) with (Ok c).
    2:{ rewrite Hp, length_snoc. cbn [at_pred]. symmetry. eapply at_app_eq; [|reflexivity].
        rewrite Hj, Hp. same_text. }
    cbn [pbind]. apply N.eqb_neq in Hc. rewrite Hc. unfold done_replace.
    rewrite (replace_app_eq json P (bare v) Q new); [reflexivity|rewrite Hj, Hb; reflexivity|reflexivity|len]. }
  destruct v as [s|s|w els|w ms]; [apply Hns; reflexivity| |apply Hns; reflexivity|apply Hns; reflexivity].
  cbn [qoff]. rewrite bare_string. rewrite Nat.add_1_r. cbn [at_pred pred].
  cbn [render] in Hj.
  rewrite (at_app_eq json P 34 (s ++ 34 :: Q)); [|rewrite Hj; same_text|reflexivity].
  cbn [pbind]. change (34 =? 34) with true. cbv iota.
  rewrite (at_app_eq json (P ++ 34 :: s) 34 Q); [|rewrite Hj; same_text|len].
  cbn [pbind]. change (34 =? 34) with true. cbv iota. unfold done_replace.
  rewrite (replace_app_eq json P (34 :: s ++ [34]) Q new); [reflexivity|rewrite Hj; reflexivity|reflexivity|len].
Qed.

Theorem set_present d p pre v post new :
  wf_doc d = true -> p <> [] -> focus (d_val d) p pre v post ->
  Set_ (text d) new p = Done (d_pre d ++ pre ++ new ++ post ++ d_post d).
Proof.
  intros Hw Hp Hf. destruct (core_present d p pre v post Hw Hp Hf) as (ks & Hc). specialize (Hc false).
  cbv iota in Hc. unfold Set_. destruct p as [|x p]; [congruence|]. rewrite Hc. cbn [ubind].
  destruct (focus_ends _ _ _ _ _ Hf (wf_doc_val _ Hw) Hp) as [H1 H2].
  rewrite (set_span_spec (text d) new (d_pre d ++ pre) v (post ++ d_post d)).
  - f_equal. same_text.
  - apply H1.
  - apply text_focus with (p := x :: p). exact Hf.
Qed.

(** Set on trees. *)
Theorem set_put d p new t' :
  wf_doc d = true -> p <> [] -> put (d_val d) p new = Some t' ->
  Set_ (text d) (render new) p = Done (text (Doc (d_pre d) t' (d_post d))).
Proof.
  intros Hw Hp Ht. assert (Hl : exists v, lookup (d_val d) p = Some v).
  { unfold put in Ht. clear Hw Hp. revert Ht. generalize (d_val d) as t. revert t'.
    induction p as [|x p IH]; intros t' t Ht; cbn in *; [eauto|].
    destruct (child t x); [|discriminate]. destruct (modify j p _) eqn:E; [|discriminate].
    eapply IH. exact E. }
  destruct Hl as [v Hl]. destruct (lookup_focus _ _ _ Hl) as (pre & post & Hf).
  rewrite (set_present d p pre v post (render new) Hw Hp Hf).
  destruct (focus_modify _ _ _ _ _ (fun _ => Some new) new Hf eq_refl) as (t2 & Hm & Hf2).
  unfold put in Ht. rewrite Hm in Ht. injection Ht as ->.
  rewrite (text_focus (Doc (d_pre d) t' (d_post d)) p pre new post Hf2). cbn [d_pre d_post]. f_equal. same_text.
Qed.

(** ** Delete *)
Lemma space_ws c : is_ws c = space c. Proof. apply is_ws_space. Qed.

Lemma back_edge_spec json A c W R :
  json = A ++ c :: W ++ R -> ws_ok W = true -> is_ws c = false ->
  back_edge json (length A + length W) = Ok (length A).
Proof.
  intros Hj Hw Hc. revert R Hj. induction W as [|x W IH] using rev_ind; intros R Hj.
  - cbn [length]. rewrite Nat.add_0_r. destruct (length A) as [|n] eqn:E; [reflexivity|].
    cbn [back_edge]. rewrite <- E. rewrite (at_app_eq json A c R); [|exact Hj|reflexivity].
    cbn [bind]. rewrite <- space_ws, Hc. reflexivity.
  - rewrite ws_ok_app in Hw. apply andb_true_iff in Hw. destruct Hw as [Hw Hx].
    cbn [ws_ok forallb] in Hx. apply andb_true_iff in Hx. destruct Hx as [Hx _].
    rewrite app_length. cbn [length]. rewrite Nat.add_assoc, Nat.add_1_r. cbn [back_edge].
    rewrite (at_app_eq json (A ++ c :: W) x R); [|rewrite Hj; same_text|len].
    cbn [bind]. rewrite <- space_ws, Hx. eapply IH; [exact Hw|]. rewrite Hj. same_text.
Qed.

Lemma fwd_edge_spec W c R i : ws_ok W = true -> is_ws c = false ->
  fwd_edge (W ++ c :: R) i = (i + length W)%nat.
Proof.
  intros Hw Hc. apply ws_ok_Forall in Hw. revert i. induction Hw as [|x W Hx Hw IH]; intro i; cbn [app fwd_edge].
  - rewrite <- space_ws, Hc. cbn [length]. lia.
  - rewrite <- space_ws, Hx, IH. cbn [length]. lia.
Qed.

(** The part of [Delete] after the span is known: [X] is cut out of its surroundings. *)
Definition delete_span (json : bytes) (start e : nat) : upd :=
  pbind (back_edge json (pred start)) (fun sedge =>
  let eedge := fwd_edge (skipn e json) e in
  pbind (at_ json sedge) (fun sc =>
  pbind (at_ json eedge) (fun ec =>
  if is_open sc && (sc + 2 =? ec) then done_replace json [] start e
  else if ec =? 44 then done_replace json [] start (S eedge)
  else if sc =? 44 then done_replace json [] sedge e
  else Fail (Some json) (EBadJSON start)))).

Lemma delete_span_spec json A sc W1 X W2 ec B start e :
  json = A ++ sc :: W1 ++ X ++ W2 ++ ec :: B ->
  ws_ok W1 = true -> ws_ok W2 = true -> is_ws sc = false -> is_ws ec = false ->
  start = length (A ++ sc :: W1) -> e = length (A ++ sc :: W1 ++ X) ->
  delete_span json start e =
  if is_open sc && (sc + 2 =? ec) then Done (A ++ sc :: W1 ++ W2 ++ ec :: B)
  else if ec =? 44 then Done (A ++ sc :: W1 ++ B)
  else if sc =? 44 then Done (A ++ W2 ++ ec :: B)
  else Fail (Some json) (EBadJSON start).
Proof.
  intros Hj H1 H2 Hs He -> ->. unfold delete_span.
  replace (pred (length (A ++ sc :: W1))) with (length A + length W1)%nat by len.
  rewrite (back_edge_spec json A sc W1 (X ++ W2 ++ ec :: B) Hj H1 Hs). cbn [pbind].
  replace (skipn (length (A ++ sc :: W1 ++ X)) json) with (W2 ++ ec :: B).
  2:{ rewrite Hj. replace (A ++ sc :: W1 ++ X ++ W2 ++ ec :: B) with ((A ++ sc :: W1 ++ X) ++ W2 ++ ec :: B) by same_text.
      symmetry. apply skipn_length_app. }
  rewrite (fwd_edge_spec W2 ec B _ H2 He).
  rewrite (at_app_eq json A sc (W1 ++ X ++ W2 ++ ec :: B) _ Hj eq_refl). cbn [pbind].
  rewrite (at_app_eq json (A ++ sc :: W1 ++ X ++ W2) ec B); [|rewrite Hj; same_text|len]. cbn [pbind].
  unfold done_replace.
  destruct (is_open sc && (sc + 2 =? ec)).
  { rewrite (replace_app_eq json (A ++ sc :: W1) X (W2 ++ ec :: B)); [|rewrite Hj; same_text|reflexivity|len].
    cbn [pbind]. f_equal. same_text. }
  destruct (ec =? 44).
  { rewrite (replace_app_eq json (A ++ sc :: W1) (X ++ W2 ++ [ec]) B); [|rewrite Hj; same_text|reflexivity|len].
    cbn [pbind]. f_equal. same_text. }
  destruct (sc =? 44); [|reflexivity].
  rewrite (replace_app_eq json A (sc :: W1 ++ X) (W2 ++ ec :: B)); [|rewrite Hj; same_text|reflexivity|len].
  reflexivity.
Qed.

Lemma ws_ok_app_intro u v : ws_ok u = true -> ws_ok v = true -> ws_ok (u ++ v) = true.
Proof. intros. rewrite ws_ok_app. apply andb_true_iff. auto. Qed.

(** Result of removing an array element, as a tree. *)
Definition cut_elem (w : bytes) (l1 : list (elem jv)) (e : elem jv) (l2 : list (elem jv)) : jv :=
  match l2 with
  | e2 :: l2' => JArr w (l1 ++ Elem (e_pre e ++ e_pre e2) (e_val e2) (e_post e2) :: l2')
  | [] => match rev l1 with
          | [] => JArr (w ++ e_pre e ++ e_post e) []
          | e1 :: r1 => JArr w (rev r1 ++ [Elem (e_pre e1) (e_val e1) (e_post e1 ++ e_post e)])
          end
  end.
Definition cut_mem (w : bytes) (l1 : list (mem jv)) (m : mem jv) (l2 : list (mem jv)) : jv :=
  match l2 with
  | m2 :: l2' => JObj w (l1 ++ Mem (m_pre m ++ m_pre m2) (m_key m2) (m_mid m2) (m_mid2 m2) (m_val m2) (m_post m2) :: l2')
  | [] => match rev l1 with
          | [] => JObj (w ++ m_pre m ++ m_post m) []
          | m1 :: r1 => JObj w (rev r1 ++ [Mem (m_pre m1) (m_key m1) (m_mid m1) (m_mid2 m1) (m_val m1) (m_post m1 ++ m_post m)])
          end
  end.

Lemma cut_elem_wf w l1 e l2 : wf (JArr w (l1 ++ e :: l2)) = true -> wf (cut_elem w l1 e l2) = true.
Proof.
  rewrite wf_arr, forallb_app. cbn [forallb]. intro H. nbool. unfold elem_ok in H1. nbool.
  unfold cut_elem. destruct l2 as [|e2 l2].
  - destruct l1 as [|e1 l1] using rev_ind; cbn [rev].
    + rewrite wf_arr. cbn [forallb]. rewrite !ws_ok_app.
      repeat match goal with H : _ = true |- _ => rewrite H end. reflexivity.
    + clear IHl1. rewrite rev_app_distr. cbn [rev app]. rewrite rev_involutive.
      rewrite forallb_app in H0. cbn [forallb] in H0. nbool.
      rewrite wf_arr, forallb_app. cbn [forallb]. unfold elem_ok at 2. cbn [e_pre e_val e_post].
      match goal with H : elem_ok e1 = true |- _ => unfold elem_ok in H end. nbool. rewrite ws_ok_app.
      repeat match goal with H : _ = true |- _ => rewrite H end. reflexivity.
  - cbn [forallb] in H2. nbool. match goal with H : elem_ok e2 = true |- _ => unfold elem_ok in H end. nbool.
    rewrite wf_arr, forallb_app. cbn [forallb]. unfold elem_ok at 2. cbn [e_pre e_val e_post]. rewrite ws_ok_app.
    repeat match goal with H : _ = true |- _ => rewrite H end. reflexivity.
Qed.

Lemma cut_mem_wf w l1 m l2 : wf (JObj w (l1 ++ m :: l2)) = true -> wf (cut_mem w l1 m l2) = true.
Proof.
  rewrite wf_obj, forallb_app. cbn [forallb]. intro H. nbool. unfold mem_ok in H1. nbool.
  unfold cut_mem. destruct l2 as [|m2 l2].
  - destruct l1 as [|m1 l1] using rev_ind; cbn [rev].
    + rewrite wf_obj. cbn [forallb]. rewrite !ws_ok_app.
      repeat match goal with H : _ = true |- _ => rewrite H end. reflexivity.
    + clear IHl1. rewrite rev_app_distr. cbn [rev app]. rewrite rev_involutive.
      rewrite forallb_app in H0. cbn [forallb] in H0. nbool.
      rewrite wf_obj, forallb_app. cbn [forallb]. unfold mem_ok at 2. cbn [m_pre m_key m_mid m_mid2 m_val m_post].
      match goal with H : mem_ok m1 = true |- _ => unfold mem_ok in H end. nbool. rewrite ws_ok_app.
      repeat match goal with H : _ = true |- _ => rewrite H end. reflexivity.
  - cbn [forallb] in H2. nbool. match goal with H : mem_ok m2 = true |- _ => unfold mem_ok in H end. nbool.
    rewrite wf_obj, forallb_app. cbn [forallb]. unfold mem_ok at 2. cbn [m_pre m_key m_mid m_mid2 m_val m_post]. rewrite ws_ok_app.
    repeat match goal with H : _ = true |- _ => rewrite H end. reflexivity.
Qed.

Lemma remove_nth_app {A} (l1 : list A) a l2 : remove_nth (length l1) (l1 ++ a :: l2) = l1 ++ l2.
Proof. induction l1; cbn; [reflexivity|]. rewrite IHl1. reflexivity. Qed.

Lemma cut_elem_content w l1 e l2 x : atoi x = Some (Z.of_nat (length l1)) ->
  d_remove x (content (JArr w (l1 ++ e :: l2))) = Some (content (cut_elem w l1 e l2)).
Proof.
  intro Hx. cbn [content d_remove]. rewrite Hx. rewrite map_app. cbn [map].
  rewrite <- (map_length (fun e => content (e_val e)) l1), nth_z_app, Nat2Z.id, remove_nth_app.
  f_equal. unfold cut_elem. destruct l2 as [|e2 l2].
  - destruct l1 as [|e1 l1] using rev_ind; [reflexivity|]. clear IHl1.
    rewrite rev_app_distr. cbn [rev app]. rewrite rev_involutive. cbn [content].
    rewrite !map_app. cbn [map e_val]. rewrite app_nil_r. reflexivity.
  - cbn [content]. rewrite map_app. reflexivity.
Qed.

Lemma assoc_remove_app {V} x (l1 : list (bytes * V)) v l2 : Forall (fun kv => fst kv <> x) l1 ->
  assoc_remove x (l1 ++ (x, v) :: l2) = l1 ++ l2.
Proof.
  induction 1 as [|[k u] l1 Hk H IH]; cbn.
  - rewrite bytes_eqb_refl. reflexivity.
  - cbn in Hk. apply bytes_eqb_neq in Hk. rewrite Hk, IH. reflexivity.
Qed.

Lemma assoc_app {V} x (l1 : list (bytes * V)) v l2 : Forall (fun kv => fst kv <> x) l1 ->
  assoc x (l1 ++ (x, v) :: l2) = Some v.
Proof.
  induction 1 as [|[k u] l1 Hk H IH]; cbn.
  - rewrite bytes_eqb_refl. reflexivity.
  - cbn in Hk. apply bytes_eqb_neq in Hk. rewrite Hk, IH. reflexivity.
Qed.

Lemma nokey_pairs x l : nokey x l -> Forall (fun kv => fst kv <> x) (map mpair l).
Proof. intro H. apply Forall_map. exact H. Qed.

Lemma cut_mem_content w l1 m l2 : nokey (m_key m) l1 ->
  d_remove (m_key m) (content (JObj w (l1 ++ m :: l2))) = Some (content (cut_mem w l1 m l2)).
Proof.
  intro Hx. cbn [content d_remove]. rewrite map_app. cbn [map]. fold mpair.
  rewrite assoc_app, assoc_remove_app by (apply nokey_pairs; exact Hx).
  f_equal. unfold cut_mem. destruct l2 as [|e2 l2].
  - destruct l1 as [|e1 l1] using rev_ind; [reflexivity|]. clear IHl1.
    rewrite rev_app_distr. cbn [rev app]. rewrite rev_involutive. cbn [content].
    rewrite !map_app. cbn [map m_val m_key]. rewrite app_nil_r. reflexivity.
  - cbn [content]. rewrite map_app. reflexivity.
Qed.

(** Cutting [X] out of the array/object text gives the text of the cut tree. *)
Lemma render_cut_elem w l1 e l2 :
  exists sc ec A W1 W2 B,
    render (JArr w (l1 ++ e :: l2)) = A ++ sc :: W1 ++ render (e_val e) ++ W2 ++ ec :: B /\
    arr_pre w l1 e = A ++ sc :: W1 /\
    (wf (JArr w (l1 ++ e :: l2)) = true -> ws_ok W1 = true /\ ws_ok W2 = true) /\
    is_ws sc = false /\ is_ws ec = false /\
    render (cut_elem w l1 e l2) =
      (if is_open sc && (sc + 2 =? ec) then A ++ sc :: W1 ++ W2 ++ ec :: B
       else if ec =? 44 then A ++ sc :: W1 ++ B else A ++ W2 ++ ec :: B) /\
    (is_open sc && (sc + 2 =? ec) = true \/ ec = 44 \/ sc = 44) /\
    ((l1 = [] -> sc = 91) /\ (l1 <> [] -> W1 = e_pre e /\ sc = 44) /\ (l2 = [] -> ec = 93) /\ (l2 <> [] -> ec = 44)).
Proof.
  assert (Hws : wf (JArr w (l1 ++ e :: l2)) = true ->
                ws_ok w = true /\ ws_ok (e_pre e) = true /\ ws_ok (e_post e) = true).
  { rewrite wf_arr, forallb_app. cbn [forallb]. intro H. nbool. unfold elem_ok in H1. nbool. auto. }
  destruct l1 as [|e1 l1] using rev_ind.
  - destruct l2 as [|e2 l2].
    + exists 91, 93, [], (w ++ e_pre e), (e_post e), [].
      cbn [rev cut_elem]. rewrite !render_arr. cbn [app map join]. unfold elem_text, arr_pre, jpre. cbn.
      refine (conj _ (conj _ (conj _ (conj _ (conj _ (conj _ (conj _ _))))))); [ | |intro H; apply Hws in H|reflexivity|reflexivity| |left; reflexivity|repeat split; try congruence; try (intro Hl; exfalso; destruct l1; discriminate Hl)].
      all: try (split; [try tauto; apply ws_ok_app_intro; tauto|tauto]).
      all: same_text.
    + exists 91, 44, [], (w ++ e_pre e), (e_post e), (join (map elem_text (e2 :: l2)) ++ [93]).
      cbn [cut_elem]. rewrite !render_arr. cbn [app map]. rewrite !join_cons, jpost_cons.
      unfold elem_text at 1 4, arr_pre, jpre. cbn [map concat app e_pre e_val e_post elem_text].
      refine (conj _ (conj _ (conj _ (conj _ (conj _ (conj _ (conj _ _))))))); [ | |intro H; apply Hws in H|reflexivity|reflexivity| |right; left; reflexivity|repeat split; try congruence; try (intro Hl; exfalso; destruct l1; discriminate Hl)].
      all: try (split; [try tauto; apply ws_ok_app_intro; tauto|tauto]).
      all: (cbn; unfold elem_text; same_text).
  - clear IHl1. destruct l2 as [|e2 l2].
    + exists 44, 93, (91 :: w ++ jpre (map elem_text l1) ++ elem_text e1), (e_pre e), (e_post e), [].
      cbn [cut_elem]. rewrite rev_app_distr. cbn [rev app]. rewrite rev_involutive.
      rewrite !render_arr. rewrite !map_app. cbn [map]. rewrite join_split. unfold arr_pre.
      rewrite map_app, jpre_app. cbn [map]. rewrite jpre_cons. change (jpre []) with (@nil N).
      rewrite join_split. rewrite jpre_app. cbn [jpre map concat jpost].
      unfold elem_text at 2 5. cbn [e_pre e_val e_post].
      refine (conj _ (conj _ (conj _ (conj _ (conj _ (conj _ (conj _ _))))))); [ | |intro H; apply Hws in H|reflexivity|reflexivity| |right; right; reflexivity|repeat split; try congruence; try (intro Hl; exfalso; destruct l1; discriminate Hl)].
      all: try (split; [try tauto; apply ws_ok_app_intro; tauto|tauto]).
      all: (cbn; unfold elem_text; same_text).
    + exists 44, 44, (91 :: w ++ jpre (map elem_text l1) ++ elem_text e1), (e_pre e), (e_post e),
        (join (map elem_text (e2 :: l2)) ++ [93]).
      cbn [cut_elem]. rewrite !render_arr. rewrite !map_app. cbn [map]. rewrite !join_split. unfold arr_pre.
      rewrite !map_app, !jpre_app. cbn [map]. rewrite !jpre_cons. change (jpre []) with (@nil N).
      rewrite join_cons, jpost_cons.
      refine (conj _ (conj _ (conj _ (conj _ (conj _ (conj _ (conj _ _))))))); [ | |intro H; apply Hws in H|reflexivity|reflexivity| |right; left; reflexivity|repeat split; try congruence; try (intro Hl; exfalso; destruct l1; discriminate Hl)].
      all: try (split; [try tauto; apply ws_ok_app_intro; tauto|tauto]).
      all: (cbn; unfold elem_text; cbn [e_pre e_val e_post]; same_text).
Qed.

Definition pair_text (m : mem jv) : bytes := 34 :: m_key m ++ obj_mid m ++ render (m_val m).

Lemma render_cut_mem w l1 m l2 :
  exists sc ec A W1 W2 B,
    render (JObj w (l1 ++ m :: l2)) = A ++ sc :: W1 ++ pair_text m ++ W2 ++ ec :: B /\
    obj_kpre w l1 m = A ++ sc :: W1 ++ [34] /\
    (wf (JObj w (l1 ++ m :: l2)) = true -> ws_ok W1 = true /\ ws_ok W2 = true) /\
    is_ws sc = false /\ sc <> 34 /\ is_ws ec = false /\
    render (cut_mem w l1 m l2) =
      (if is_open sc && (sc + 2 =? ec) then A ++ sc :: W1 ++ W2 ++ ec :: B
       else if ec =? 44 then A ++ sc :: W1 ++ B else A ++ W2 ++ ec :: B) /\
    (is_open sc && (sc + 2 =? ec) = true \/ ec = 44 \/ sc = 44).
Proof.
  assert (Hws : wf (JObj w (l1 ++ m :: l2)) = true ->
                ws_ok w = true /\ ws_ok (m_pre m) = true /\ ws_ok (m_post m) = true).
  { rewrite wf_obj, forallb_app. cbn [forallb]. intro H. nbool. unfold mem_ok in H1. nbool. auto. }
  unfold pair_text, obj_mid.
  destruct l1 as [|m1 l1] using rev_ind.
  - destruct l2 as [|m2 l2].
    + exists 123, 125, [], (w ++ m_pre m), (m_post m), [].
      cbn [rev cut_mem]. rewrite !render_obj. cbn [app map join]. unfold mem_text, obj_kpre, jpre. cbn.
      refine (conj _ (conj _ (conj _ (conj _ (conj _ (conj _ (conj _ _))))))); [ | |intro H; apply Hws in H|reflexivity|discriminate|reflexivity| |left; reflexivity].
      all: try (split; [try tauto; apply ws_ok_app_intro; tauto|tauto]).
      all: same_text.
    + exists 123, 44, [], (w ++ m_pre m), (m_post m), (join (map mem_text (m2 :: l2)) ++ [125]).
      cbn [cut_mem]. rewrite !render_obj. cbn [app map]. rewrite !join_cons, jpost_cons.
      unfold obj_kpre, jpre. cbn [map concat app].
      refine (conj _ (conj _ (conj _ (conj _ (conj _ (conj _ (conj _ _))))))); [ | |intro H; apply Hws in H|reflexivity|discriminate|reflexivity| |right; left; reflexivity].
      all: try (split; [try tauto; apply ws_ok_app_intro; tauto|tauto]).
      all: (cbn; unfold mem_text; cbn [m_pre m_key m_mid m_mid2 m_val m_post]; same_text).
  - clear IHl1. destruct l2 as [|m2 l2].
    + exists 44, 125, (123 :: w ++ jpre (map mem_text l1) ++ mem_text m1), (m_pre m), (m_post m), [].
      cbn [cut_mem]. rewrite rev_app_distr. cbn [rev app]. rewrite rev_involutive.
      rewrite !render_obj. rewrite !map_app. cbn [map]. rewrite join_split. unfold obj_kpre.
      rewrite map_app, jpre_app. cbn [map]. rewrite jpre_cons. change (jpre []) with (@nil N).
      rewrite join_split. rewrite jpre_app. cbn [jpre map concat jpost].
      refine (conj _ (conj _ (conj _ (conj _ (conj _ (conj _ (conj _ _))))))); [ | |intro H; apply Hws in H|reflexivity|discriminate|reflexivity| |right; right; reflexivity].
      all: try (split; [try tauto; apply ws_ok_app_intro; tauto|tauto]).
      all: (cbn; unfold mem_text; cbn [m_pre m_key m_mid m_mid2 m_val m_post]; same_text).
    + exists 44, 44, (123 :: w ++ jpre (map mem_text l1) ++ mem_text m1), (m_pre m), (m_post m),
        (join (map mem_text (m2 :: l2)) ++ [125]).
      cbn [cut_mem]. rewrite !render_obj. rewrite !map_app. cbn [map]. rewrite !join_split. unfold obj_kpre.
      rewrite !map_app, !jpre_app. cbn [map]. rewrite !jpre_cons. change (jpre []) with (@nil N).
      rewrite join_cons, jpost_cons.
      refine (conj _ (conj _ (conj _ (conj _ (conj _ (conj _ (conj _ _))))))); [ | |intro H; apply Hws in H|reflexivity|discriminate|reflexivity| |right; left; reflexivity].
      all: try (split; [try tauto; apply ws_ok_app_intro; tauto|tauto]).
      all: (cbn; unfold mem_text; cbn [m_pre m_key m_mid m_mid2 m_val m_post]; same_text).
Qed.

(** The quote adjustment of Delete and Insert: from the span of the bare value to that of its text. *)
Definition unquote_start (json : bytes) (s : nat) : res nat :=
  do c <- at_pred json s; Ok (if c =? 34 then pred s else s).
Definition unquote_end (json : bytes) (e : nat) : res nat :=
  do c <- at_ json e; Ok (if c =? 34 then S e else e).

Lemma unquote_start_noq json P R s : json = P ++ R -> noq P -> s = length P -> unquote_start json s = Ok s.
Proof.
  intros Hj (p & c & -> & Hc) ->. unfold unquote_start. rewrite length_snoc. cbn [at_pred].
  rewrite (at_app_eq json p c R); [|rewrite Hj; same_text|reflexivity]. cbn [bind].
  apply N.eqb_neq in Hc. rewrite Hc. reflexivity.
Qed.

Lemma unquote_start_spec json P v R : json = P ++ render v ++ R -> noq P ->
  unquote_start json (length P + qoff v) = Ok (length P).
Proof.
  intros Hj HP. destruct v.
  2:{ unfold unquote_start. cbn [qoff]. rewrite Nat.add_1_r. cbn [at_pred].
      rewrite (at_app_eq json P 34 (s ++ 34 :: R)); [|rewrite Hj; cbn [render]; same_text|reflexivity]. reflexivity. }
  all: cbn [qoff]; rewrite Nat.add_0_r; eapply unquote_start_noq; [exact Hj|exact HP|reflexivity].
Qed.

Lemma unquote_end_spec json P v R : json = P ++ render v ++ R -> terminated R ->
  unquote_end json (length P + qoff v + length (bare v)) = Ok (length (P ++ render v)).
Proof.
  intros Hj HR. apply terminated_noq in HR. destruct HR as (c & r & -> & Hc). unfold unquote_end.
  destruct v.
  2:{ rewrite (at_app_eq json (P ++ 34 :: s) 34 (c :: r)); [|rewrite Hj; cbn [render]; same_text|cbn [qoff]; rewrite bare_string; len].
      cbn [bind]. change (34 =? 34) with true. cbv iota. f_equal. cbn [qoff]. rewrite bare_string. cbn [render]. len. }
  all: match goal with |- context [bare ?v] =>
    rewrite (at_app_eq json (P ++ bare v) c r); [|rewrite Hj; same_text|cbn [qoff]; len] end.
  all: cbn [bind]; apply N.eqb_neq in Hc; rewrite Hc; f_equal; cbn [qoff]; unfold bare; len.
Qed.

Lemma Delete_unfold json x path : Delete json (x :: path) =
  ubind json (core json false (x :: path)) (fun '(ks, s, e) =>
    match ks with
    | Some O => UPanic
    | _ => pbind (unquote_start json (match ks with None => s | Some ks => pred ks end)) (fun start =>
           pbind (unquote_end json e) (fun e => delete_span json start e))
    end).
Proof.
  unfold Delete, unquote_start, unquote_end, delete_span. destruct (core json false (x :: path)) as [[[ks s] e]| |]; try reflexivity.
  cbn [ubind]. destruct ks as [[|ks]|]; try reflexivity.
  - destruct (at_pred json _); try reflexivity. cbn [bind pbind]. destruct (at_ json e); reflexivity.
  - destruct (at_pred json _); try reflexivity. cbn [bind pbind]. destruct (at_ json e); reflexivity.
Qed.

Lemma noq_space A c W : ws_ok W = true -> c <> 34 -> noq (A ++ c :: W).
Proof.
  intros Hw Hc. replace (A ++ c :: W) with ((A ++ [c]) ++ W) by same_text. apply noq_ws; [|exact Hw].
  apply noq_snoc. exact Hc.
Qed.

Lemma cut_if (A : bytes) sc ec W1 W2 B json n :
  (is_open sc && (sc + 2 =? ec) = true \/ ec = 44 \/ sc = 44) ->
  (if is_open sc && (sc + 2 =? ec) then Done (A ++ sc :: W1 ++ W2 ++ ec :: B)
   else if ec =? 44 then Done (A ++ sc :: W1 ++ B)
   else if sc =? 44 then Done (A ++ W2 ++ ec :: B)
   else Fail (Some json) (EBadJSON n)) =
  Done (if is_open sc && (sc + 2 =? ec) then A ++ sc :: W1 ++ W2 ++ ec :: B
   else if ec =? 44 then A ++ sc :: W1 ++ B
   else A ++ W2 ++ ec :: B).
Proof.
  intro H. destruct (is_open sc && (sc + 2 =? ec)); [reflexivity|].
  destruct (ec =? 44) eqn:E; [reflexivity|]. destruct (sc =? 44) eqn:E2; [reflexivity|].
  nbool. destruct H as [|[|]]; congruence.
Qed.

Lemma delete_unfold_cons json q x : Delete json (q ++ [x]) =
  ubind json (core json false (q ++ [x])) (fun '(ks, s, e) =>
    match ks with
    | Some O => UPanic
    | _ => pbind (unquote_start json (match ks with None => s | Some ks => pred ks end)) (fun start =>
           pbind (unquote_end json e) (fun e => delete_span json start e))
    end).
Proof. destruct q; apply Delete_unfold. Qed.

Theorem delete_arr d q x w l1 e l2 pre post :
  wf_doc d = true -> focus (d_val d) q pre (JArr w (l1 ++ e :: l2)) post ->
  atoi x = Some (Z.of_nat (length l1)) ->
  Delete (text d) (q ++ [x]) = Done (d_pre d ++ pre ++ render (cut_elem w l1 e l2) ++ post ++ d_post d).
Proof.
  intros Hw Hf Hx. pose proof (focus_wf _ _ _ _ _ Hf (wf_doc_val _ Hw)) as Hwc.
  rewrite delete_unfold_cons, (core_arr d q x w l1 e l2 pre post false Hw Hf Hx). cbv zeta iota. cbn [ubind].
  destruct (render_cut_elem w l1 e l2) as (sc & ec & A & W1 & W2 & B & Hr & Hpre & Hws & Hsc & Hec & Hcut & Hcase & _).
  destruct (Hws Hwc) as [Hw1 Hw2].
  pose proof (text_focus _ _ _ _ _ Hf) as Ht.
  assert (Hoke : ws_ok w = true /\ ws_ok (e_pre e) = true /\ elem_ok e = true).
  { rewrite wf_arr, forallb_app in Hwc. cbn [forallb] in Hwc. nbool. assert (Hk := H1). unfold elem_ok in H1. nbool. auto. }
  destruct Hoke as (Hok1 & Hok2 & Hok3).
  assert (Ht2 : text d = (d_pre d ++ pre ++ arr_pre w l1 e) ++ render (e_val e) ++ arr_post e l2 ++ post ++ d_post d).
  { rewrite Ht, render_arr_split. same_text. }
  rewrite (unquote_start_spec (text d) (d_pre d ++ pre ++ arr_pre w l1 e) (e_val e) _ Ht2).
  2:{ rewrite app_assoc. apply noq_arr_pre; assumption. }
  cbn [pbind].
  rewrite (unquote_end_spec (text d) (d_pre d ++ pre ++ arr_pre w l1 e) (e_val e) _ Ht2).
  2:{ apply term_arr. assumption. }
  cbn [pbind].
  rewrite (delete_span_spec (text d) (d_pre d ++ pre ++ A) sc W1 (render (e_val e)) W2 ec (B ++ post ++ d_post d)).
  - rewrite (cut_if _ _ _ _ _ _ _ _ Hcase). f_equal. rewrite Hcut.
    destruct (is_open sc && (sc + 2 =? ec)); [same_text|]. destruct (ec =? 44); same_text.
  - rewrite Ht, Hr. same_text.
  - assumption.
  - assumption.
  - assumption.
  - assumption.
  - rewrite Hpre. f_equal. same_text.
  - rewrite Hpre. f_equal. same_text.
Qed.

Theorem delete_obj d q w l1 m l2 pre post :
  wf_doc d = true -> focus (d_val d) q pre (JObj w (l1 ++ m :: l2)) post ->
  nokey (m_key m) l1 ->
  Delete (text d) (q ++ [m_key m]) = Done (d_pre d ++ pre ++ render (cut_mem w l1 m l2) ++ post ++ d_post d).
Proof.
  intros Hw Hf Hx. pose proof (focus_wf _ _ _ _ _ Hf (wf_doc_val _ Hw)) as Hwc.
  rewrite delete_unfold_cons, (core_obj d q w l1 m l2 pre post false Hw Hf Hx). cbv zeta iota. cbn [ubind].
  destruct (render_cut_mem w l1 m l2) as (sc & ec & A & W1 & W2 & B & Hr & Hpre & Hws & Hsc & Hsq & Hec & Hcut & Hcase).
  destruct (Hws Hwc) as [Hw1 Hw2].
  pose proof (text_focus _ _ _ _ _ Hf) as Ht.
  assert (Hokm : mem_ok m = true).
  { rewrite wf_obj, forallb_app in Hwc. cbn [forallb] in Hwc. nbool. assumption. }
  assert (Ht2 : text d = (d_pre d ++ pre ++ obj_pre w l1 m) ++ render (m_val m) ++ obj_post m l2 ++ post ++ d_post d).
  { rewrite Ht, render_obj_split. same_text. }
  replace (length (d_pre d ++ pre ++ obj_kpre w l1 m)) with (S (length (d_pre d ++ pre ++ A ++ sc :: W1))).
  2:{ rewrite Hpre. len. }
  cbn [pred].
  rewrite (unquote_start_noq (text d) (d_pre d ++ pre ++ A ++ sc :: W1) (pair_text m ++ W2 ++ ec :: B ++ post ++ d_post d)).
  2:{ rewrite Ht, Hr. same_text. }
  2:{ replace (d_pre d ++ pre ++ A ++ sc :: W1) with ((d_pre d ++ pre ++ A) ++ sc :: W1) by same_text.
      apply noq_space; assumption. }
  2: reflexivity.
  cbn [pbind].
  rewrite (unquote_end_spec (text d) (d_pre d ++ pre ++ obj_pre w l1 m) (m_val m) _ Ht2).
  2:{ apply term_obj. assumption. }
  cbn [pbind].
  rewrite (delete_span_spec (text d) (d_pre d ++ pre ++ A) sc W1 (pair_text m) W2 ec (B ++ post ++ d_post d)).
  - rewrite (cut_if _ _ _ _ _ _ _ _ Hcase). f_equal. rewrite Hcut.
    destruct (is_open sc && (sc + 2 =? ec)); [same_text|]. destruct (ec =? 44); same_text.
  - rewrite Ht, Hr. same_text.
  - assumption.
  - assumption.
  - assumption.
  - assumption.
  - f_equal. same_text.
  - unfold obj_pre, pair_text. rewrite Hpre. f_equal. same_text.
Qed.
