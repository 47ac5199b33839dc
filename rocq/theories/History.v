(** Lookup failures, reading back after an update, and histories of updates. *)
From Coq Require Import String.
From Verif Require Import GoStd Json Spec Core Skip Focus CoreProofs CoreNeg Errors Api SpecProofs ApiProofs Parse Domains Ops Updates CoreSib Below.

Local Open Scope N_scope.

(** ** Failing lookups *)
Lemma Get_core json x p : Get json (x :: p) = do '(_, s, e) <- core json false (x :: p); slice json s e.
Proof. reflexivity. Qed.

Lemma get_err json q x rest e : core json false (q ++ x :: rest) = Err e -> Get json (q ++ x :: rest) = Err e.
Proof. intro H. unfold Get. destruct (q ++ x :: rest) eqn:E; [destruct q; discriminate|]. rewrite H. reflexivity. Qed.

Definition step_error (els : list (elem jv)) (x : bytes) (rest : list bytes) : err :=
  match atoi x with
  | None => EIndexExpected
  | Some _ => match els, rest with
              | [], [] => match atoi x with Some 0%Z => EEmptyArray | _ => EIndexOutOfRange end
              | _, _ => EIndexOutOfRange
              end
  end.

Lemma core_bad_step d q x rest w els : wf_doc d = true -> lookup (d_val d) q = Some (JArr w els) ->
  bad_step els x = true -> core (text d) false (q ++ x :: rest) = Err (step_error els x rest).
Proof.
  intros Hw Hl Hb. destruct (lookup_focus _ _ _ Hl) as (pre & post & Hf). unfold bad_step in Hb. unfold step_error.
  destruct (atoi x) as [z|] eqn:Hx.
  - destruct (nth_z els z) eqn:En; [discriminate|]. destruct (Z.eq_dec z 0) as [-> |Hz].
    + destruct els as [|a els]; [|discriminate En]. rewrite (core_empty_array d q x rest w pre post Hw Hf Hx).
      destruct rest; reflexivity.
    + rewrite (core_index_range d q x rest w els pre post false z Hw Hf Hx Hz En).
      destruct els; [|reflexivity]. destruct rest; [|reflexivity]. destruct z; [congruence|reflexivity|reflexivity].
  - apply (core_index_expected d q x rest w els pre post false Hw Hf Hx).
Qed.

Lemma core_seen_below d p : wf_doc d = true -> seen_below d p ->
  exists e, core (text d) false p = Err e.
Proof.
  intros Hw [(q & x & y & rest & w & l1 & e & l2 & pre & post & -> & Hf & Hx & Hc)
            |[(q & y & rest & w & l1 & m & l2 & pre & post & -> & Hf & Hk & Ho)|(q & x & y & rest & w & ms & v & -> & Hl & Hx & Hc & Hb)]].
  - eexists. eapply core_below_element; eassumption.
  - eexists. eapply core_below_member; eassumption.
  - pose proof (core_below_at d q x (y :: rest) v w ms Hw Hl Hx Hc ltac:(discriminate)) as E. rewrite Hb in E. exact E.
Qed.

Lemma core_unresolved d p : wf_doc d = true -> seen_unresolved d p ->
  p <> [] /\ exists e, core (text d) false p = Err e.
Proof.
  intros Hw [(q & x & rest & w & els & -> & Hl & Hb)|[(q & x & rest & -> & Ha)|Hb]].
  - split; [destruct q; discriminate|]. eexists. eapply core_bad_step; eassumption.
  - split; [destruct q; discriminate|]. eexists. apply core_seen_absent; assumption.
  - split; [|apply core_seen_below; assumption].
    destruct Hb as [(q & x & y & rest & w & l1 & e & l2 & pre & post & -> & _)|
      [(q & y & rest & w & l1 & m & l2 & pre & post & -> & _)|(q & x & y & rest & w & ms & v & -> & _)]];
      destruct q; discriminate.
Qed.

Theorem get_unresolved d p : wf_doc d = true -> seen_unresolved d p -> exists e, Get (text d) p = Err e.
Proof.
  intros Hw Hu. destruct (core_unresolved d p Hw Hu) as (Hp & e & He). exists e.
  unfold Get. destruct p; [congruence|]. rewrite He. reflexivity.
Qed.

Theorem get_bad_step d q x rest w els :
  wf_doc d = true -> lookup (d_val d) q = Some (JArr w els) ->
  (atoi x = None -> Get (text d) (q ++ x :: rest) = Err EIndexExpected) /\
  (forall z, atoi x = Some z -> nth_z els z = None ->
     Get (text d) (q ++ x :: rest) =
     Err (match els, rest with
          | [], [] => if (z =? 0)%Z then EEmptyArray else EIndexOutOfRange
          | _, _ => EIndexOutOfRange
          end)).
Proof.
  intros Hw Hl. split.
  - intro Hx. apply get_err. rewrite (core_bad_step d q x rest w els Hw Hl) by (unfold bad_step; rewrite Hx; reflexivity).
    unfold step_error. rewrite Hx. reflexivity.
  - intros z Hx Hn. apply get_err. rewrite (core_bad_step d q x rest w els Hw Hl) by (unfold bad_step; rewrite Hx, Hn; reflexivity).
    unfold step_error. rewrite Hx. destruct els; [|reflexivity]. destruct rest; [|reflexivity]. destruct z; reflexivity.
Qed.

Theorem get_seen_absent d q x rest :
  wf_doc d = true -> seen_absent d q x -> Get (text d) (q ++ x :: rest) = Err (EKeyNotFound x).
Proof. intros Hw Ha. apply get_err. apply core_seen_absent; assumption. Qed.

(** What a path below a value finds. *)
Theorem get_below_at d q x p v w ms :
  wf_doc d = true -> lookup (d_val d) q = Some (JObj w ms) -> lookup (d_val d) (q ++ [x]) = Some v -> container v = false -> p <> [] ->
  match below_at (d_val d) q x p with
  | Nowhere => exists e, Get (text d) (q ++ x :: p) = Err e
  | Stray u => Get (text d) (q ++ x :: p) = Ok (bare u)
  | Unclear => True
  end.
Proof.
  intros Hw Hl Hx Hc Hp. pose proof (core_below_at d q x p v w ms Hw Hl Hx Hc Hp) as E.
  destruct (below_at (d_val d) q x p) as [|u|]; cbn [finds] in E; [| |exact I].
  - destruct E as (e & E). exists e. apply get_err. exact E.
  - destruct E as (A & B & ks & Ht & _ & _ & _ & E). unfold Get. destruct (q ++ x :: p) as [|y r] eqn:Eq; [destruct q; discriminate|]. rewrite E. cbn [bind].
    eapply slice_app_eq with (p := A ++ match u with JString _ => [34] | _ => [] end)
      (r := (match u with JString _ => [34] | _ => [] end) ++ B).
    + rewrite Ht, span_render. same_text.
    + destruct u; cbn [qoff]; len.
    + destruct u; cbn [qoff]; len.
Qed.

Theorem set_below_at d q x p v w ms u new :
  wf_doc d = true -> lookup (d_val d) q = Some (JObj w ms) -> lookup (d_val d) (q ++ [x]) = Some v -> container v = false -> p <> [] ->
  below_at (d_val d) q x p = Stray u -> exists A B, text d = A ++ render u ++ B /\ Set_ (text d) new (q ++ x :: p) = Done (A ++ new ++ B).
Proof.
  intros Hw Hl Hx Hc Hp Hb. pose proof (core_below_at d q x p v w ms Hw Hl Hx Hc Hp) as E. rewrite Hb in E.
  destruct E as (A & B & ks & Ht & Hu & HB & HA & E). exists A, B. split; [exact Ht|]. unfold Set_.
  destruct (q ++ x :: p) as [|y r] eqn:Eq; [destruct q; discriminate|]. rewrite E. cbn [ubind]. apply set_span_spec; assumption.
Qed.

Theorem get_seen_below d p : wf_doc d = true -> seen_below d p -> exists e, Get (text d) p = Err e.
Proof. intros Hw Hb. apply get_unresolved; [exact Hw|]. right. right. exact Hb. Qed.

(** ** Reading back *)
Theorem get_after_set d p new :
  wf_doc d = true -> wf new = true -> p <> [] -> lookup (d_val d) p <> None ->
  exists out, Set_ (text d) (render new) p = Done out /\ Get out p = Ok (bare new).
Proof.
  intros Hw Hn Hp Hl. destruct (lookup (d_val d) p) as [v|] eqn:E; [|congruence].
  destruct (lookup_focus _ _ _ E) as (pre & post & Hf).
  destruct (focus_modify _ _ _ _ _ (fun _ => Some new) new Hf eq_refl) as (t2 & Hm & Hf2).
  set (d' := Doc (d_pre d) t2 (d_post d)).
  assert (Hw' : wf_doc d' = true).
  { unfold wf_doc in *. cbn [d_pre d_val d_post d']. nbool.
    repeat match goal with H : _ = true |- _ => rewrite H end. rewrite (modify_wf _ _ _ _ _ _ E eq_refl H1 Hn Hm). reflexivity. }
  exists (text d'). split.
  - rewrite (set_present d p pre v post (render new) Hw Hp Hf).
    rewrite (text_focus d' p pre new post Hf2). f_equal. same_text.
  - apply get_present; [exact Hw'|exact Hp|]. apply (focus_lookup _ _ _ _ _ Hf2).
Qed.

Lemma map_set_nth {A B} (g : A -> B) l n f c : (forall a, g (f a) = c) ->
  map g (set_nth l n f) = set_nth (map g l) n (fun _ => c).
Proof. intro H. revert n. induction l as [|a l IH]; intros [|n]; cbn; rewrite ?H, ?IH; reflexivity. Qed.

Definition kv (m : mem jv) : bytes * jv := (m_key m, m_val m).
Lemma assoc_kv x ms : assoc x (map kv ms) = option_map m_val (find_mem x ms).
Proof.
  induction ms as [|m ms IH]; cbn; [reflexivity|]. destruct (bytes_eqb (m_key m) x); [reflexivity|exact IH].
Qed.
Lemma set_mem_kv x c ms : map kv (set_mem x (fun m => with_val m c) ms) = assoc_set x c (map kv ms).
Proof.
  induction ms as [|m ms IH]; cbn; [reflexivity|]. destruct (bytes_eqb (m_key m) x); cbn; [reflexivity|].
  rewrite IH. reflexivity.
Qed.

Lemma child_set_same t x c a : child t x = Some a -> child (set_child t x c) x = Some c.
Proof.
  destruct t as [s|s|w els|w ms]; cbn [child set_child]; try discriminate; intro H.
  - destruct (atoi x) as [z|] eqn:E; [|discriminate]. cbn [child]. rewrite E. rewrite <- nth_z_map in *.
    rewrite (map_set_nth _ _ _ _ c) by reflexivity. eapply nth_z_set_nth_same. exact H.
  - cbn [child]. rewrite <- assoc_kv in *. rewrite set_mem_kv. eapply assoc_set_same. exact H.
Qed.

Lemma child_set_other t x y c a : child t x = Some a -> ~ same_step (content t) x y ->
  child (set_child t x c) y = child t y.
Proof.
  destruct t as [s|s|w els|w ms]; cbn [child set_child content same_step]; intros H Hn; try reflexivity.
  - destruct (atoi x) as [z|] eqn:E; [|discriminate]. cbn [child].
    destruct (atoi y) as [u|]; [|reflexivity]. rewrite <- !nth_z_map in *. rewrite (map_set_nth _ _ _ _ c) by reflexivity.
    apply nth_z_set_nth. destruct (Z.ltb_spec u 0); [right; assumption|left].
    assert (0 <= z)%Z. { unfold nth_z in H. destruct (0 <=? z)%Z eqn:E2; [lia|discriminate]. }
    intro Heq. apply Hn. f_equal. lia.
  - cbn [child]. rewrite <- !assoc_kv, set_mem_kv. apply assoc_set_other. exact Hn.
Qed.

Lemma child_same_step t x y : same_step (content t) x y -> child t x = child t y.
Proof. destruct t; cbn; intro H; rewrite ?H; reflexivity. Qed.

Lemma lookup_modify_apart t p q f t' : modify t p f = Some t' -> apart (content t) p q -> lookup t' q = lookup t q.
Proof.
  revert q t t'. induction p as [|x p IH]; intros q t t' Hm Ha; [destruct q; contradiction Ha|].
  destruct q as [|y q]; [contradiction Ha|]. cbn [modify lookup apart] in *.
  destruct (child t x) as [c|] eqn:E; [|discriminate].
  destruct (modify c p f) as [c'|] eqn:E2; [|discriminate]. injection Hm as <-.
  destruct (same_step_dec (content t) x y) as [Hs|Hs].
  - destruct (Ha Hs) as (c0 & Hc0 & Ha'). rewrite child_content, E in Hc0. injection Hc0 as <-.
    assert (Hy : child t y = Some c) by (rewrite <- (child_same_step _ _ _ Hs); exact E).
    assert (Hy' : child (set_child t x c') y = Some c').
    { rewrite <- (child_same_step (set_child t x c') x y).
      - eapply child_set_same. exact E.
      - destruct t; try exact Hs. cbn [same_step set_child content] in Hs |- *. destruct (atoi x) eqn:Ex; cbn [same_step content]; congruence. }
    rewrite Hy, Hy'. eapply IH; eassumption.
  - rewrite (child_set_other _ _ _ _ _ E Hs). reflexivity.
Qed.

(** The value at any path that parts from the updated one is read as before. *)
Theorem get_after_set_apart d p new q v :
  wf_doc d = true -> wf new = true -> p <> [] -> lookup (d_val d) p <> None ->
  apart (content (d_val d)) p q -> lookup (d_val d) q = Some v ->
  exists out, Set_ (text d) (render new) p = Done out /\ Get out q = Ok (bare v) /\ Get (text d) q = Ok (bare v).
Proof.
  intros Hw Hn Hp Hl Ha Hq. destruct (lookup (d_val d) p) as [u|] eqn:E; [|congruence].
  destruct (lookup_focus _ _ _ E) as (pre & post & Hf).
  destruct (focus_modify _ _ _ _ _ (fun _ => Some new) new Hf eq_refl) as (t2 & Hm & Hf2).
  set (d' := Doc (d_pre d) t2 (d_post d)).
  assert (Hw' : wf_doc d' = true).
  { unfold wf_doc in *. cbn [d_pre d_val d_post d']. nbool.
    repeat match goal with H : _ = true |- _ => rewrite H end. rewrite (modify_wf _ _ _ _ _ _ E eq_refl H1 Hn Hm). reflexivity. }
  assert (Hq0 : q <> []) by (destruct p, q; cbn in Ha; try contradiction; discriminate).
  exists (text d'). split; [|split].
  - rewrite (set_present d p pre u post (render new) Hw Hp Hf).
    rewrite (text_focus d' p pre new post Hf2). f_equal. same_text.
  - apply get_present; [exact Hw'|exact Hq0|]. cbn [d' d_val]. rewrite (lookup_modify_apart _ _ _ _ _ Hm Ha). exact Hq.
  - apply get_present; assumption.
Qed.

(** ** Failing updates on unresolved paths *)
Section unresolved.
  Variables (d : doc) (p : list bytes).
  Hypotheses (Hw : wf_doc d = true) (Hu : seen_unresolved d p).

  Lemma set_unresolved new : exists e, Set_ (text d) new p = Fail (Some (text d)) e.
  Proof.
    destruct (core_unresolved d p Hw Hu) as (Hp & e & He). exists e. unfold Set_. destruct p; [congruence|]. rewrite He. reflexivity.
  Qed.
  Lemma delete_unresolved : exists e, Delete (text d) p = Fail (Some (text d)) e.
  Proof.
    destruct (core_unresolved d p Hw Hu) as (Hp & e & He). exists e. unfold Delete. destruct p; [congruence|]. rewrite He. reflexivity.
  Qed.
  Lemma add_unresolved v : exists e, Add_ (text d) v p = Fail (Some (text d)) e.
  Proof.
    destruct (core_unresolved d p Hw Hu) as (Hp & e & He). unfold Add_.
    destruct (length (text d) <? 2)%nat; [eexists; reflexivity|]. unfold target_span. destruct p; [congruence|]. rewrite He.
    eexists; reflexivity.
  Qed.
  Lemma insert_unresolved z v : exists e, Insert (text d) z v p = Fail (Some (text d)) e.
  Proof.
    destruct (core_unresolved d p Hw Hu) as (Hp & e & He). unfold Insert.
    unfold target_span. destruct p; [congruence|]. rewrite He. eexists; reflexivity.
  Qed.
  Lemma addkv_unresolved k v : exists e, AddKeyValue (text d) k v p = Fail (Some (text d)) e.
  Proof.
    destruct (core_unresolved d p Hw Hu) as (Hp & e & He). unfold AddKeyValue.
    destruct (length (text d) <? 2)%nat; [eexists; reflexivity|]. unfold target_span. destruct p; [congruence|]. rewrite He.
    eexists; reflexivity.
  Qed.
End unresolved.

Theorem call_ok d o c' : wf_doc d = true -> legal d o -> meaning o (content (d_val d)) = Some c' ->
  exists d', call o (text d) = Done (text d') /\ matches d d' c'.
Proof.
  intros Hw Hl Hm. destruct o as [p v|q x|p v|p k v|p z v|q x k|p k v]; cbn [legal meaning call] in *.
  - destruct Hl. apply set_ok; assumption.
  - apply delete_ok; assumption.
  - apply add_ok; assumption.
  - destruct Hl as (H1 & H2 & H3). apply (add_kv_ok d p k (Some v)); assumption.
  - destruct Hl as (H1 & H2 & w & els & H3 & H4). eapply insert_ok; eassumption.
  - destruct Hl as (H1 & H2 & H3). apply setkey_ok; assumption.
  - destruct Hl as (H1 & H2 & H3). apply store_ok; assumption.
Qed.

Theorem call_rejected d o : wf_doc d = true -> rejected d o -> exists e, call o (text d) = Fail (Some (text d)) e.
Proof.
  intros Hw Hr. destruct o as [p v|q x|p v|p k v|p z v|q x k|p k v]; cbn [rejected call] in *.
  - destruct Hr as [-> |Hr]; [eexists; reflexivity|apply set_unresolved; assumption].
  - apply delete_unresolved; assumption.
  - destruct Hr as [Hr|(pre & u & post & Hf & H1 & H2)]; [apply add_unresolved; assumption|].
    eexists. eapply add_not_array; eassumption.
  - destruct Hr as [Hr|[(w & ms & H1 & H2)|(pre & u & post & Hf & H1 & H2)]]; [apply addkv_unresolved; assumption| |].
    + destruct (d_lookup (content (d_val d)) (p ++ [k])) as [u|] eqn:E; [|congruence].
      eexists. eapply add_kv_present; eauto.
    + eexists. eapply add_kv_not_object; eassumption.
  - destruct Hr as [Hr|[(w & els & H1 & H2 & H3)|(pre & u & post & Hf & H1 & H2)]]; [apply insert_unresolved; assumption| |].
    + eexists. eapply insert_range; eassumption.
    + eexists. eapply insert_not_array; eassumption.
  - destruct k as [|c k].
    { eexists. cbn. destruct (q ++ [x]); reflexivity. }
    destruct Hr as [Hr|[Hr|(w & els & Hl)]]; [discriminate| |].
    + destruct (d_lookup (content (d_val d)) (q ++ [c :: k])) as [u|] eqn:E; [|congruence].
      eexists. eapply setkey_taken; [assumption|discriminate|exact E].
    + destruct (lookup_focus _ _ _ Hl) as (pre & post & Hf). eapply setkey_array; [assumption|discriminate|exact Hf].
  - contradiction.
Qed.

Theorem history d ops c' : wf_doc d = true -> lawful d ops c' ->
  exists d', run ops (text d) = Some (text d') /\ wf_doc d' = true /\ content (d_val d') = c'.
Proof.
  intros Hw H. revert Hw. induction H as [d|d o ops c1 c2 Hl Hm _ IH|d o ops c2 Hr _ IH]; intro Hw.
  - exists d. auto.
  - destruct (call_ok d o c1 Hw Hl Hm) as (d1 & Hc & (Hw1 & _ & _ & Hc1)). cbn [run]. rewrite Hc.
    apply (IH d1 Hw1 Hc Hc1 Hw1).
  - destruct (call_rejected d o Hw Hr) as (e & He). cbn [run]. rewrite He. apply IH. exact Hw.
Qed.

Theorem history_plain ops : Forall plain_op ops -> forall d c', wf_doc d = true ->
  meanings ops (content (d_val d)) = Some c' ->
  exists d', run ops (text d) = Some (text d') /\ wf_doc d' = true /\ content (d_val d') = c'.
Proof.
  induction 1 as [|o ops Ho _ IH]; intros d c' Hw Hm; cbn [meanings run] in *.
  - injection Hm as <-. exists d. auto.
  - destruct (meaning o (content (d_val d))) as [c1|] eqn:E; [|discriminate].
    assert (Hl : legal d o) by (destruct o; cbn in *; tauto).
    destruct (call_ok d o c1 Hw Hl E) as (d1 & Hc & (Hw1 & _ & _ & Hc1)). rewrite Hc.
    apply IH; [exact Hw1|]. rewrite Hc1. exact Hm.
Qed.

(** ** Delete only removes text *)
Lemma cut_local (A : bytes) sc W1 X W2 ec B :
  exists P Y Q, A ++ sc :: W1 ++ X ++ W2 ++ ec :: B = P ++ Y ++ Q /\
    (if is_open sc && (sc + 2 =? ec) then A ++ sc :: W1 ++ W2 ++ ec :: B
     else if ec =? 44 then A ++ sc :: W1 ++ B else A ++ W2 ++ ec :: B) = P ++ Q.
Proof.
  destruct (is_open sc && (sc + 2 =? ec)).
  { exists (A ++ sc :: W1), X, (W2 ++ ec :: B). split; same_text. }
  destruct (ec =? 44).
  { exists (A ++ sc :: W1), (X ++ W2 ++ [ec]), B. split; same_text. }
  exists A, (sc :: W1 ++ X), (W2 ++ ec :: B). split; same_text.
Qed.

Theorem delete_local d p : wf_doc d = true -> p <> [] -> lookup (d_val d) p <> None ->
  exists A X B, text d = A ++ X ++ B /\ Delete (text d) p = Done (A ++ B).
Proof.
  intros Hw Hp Hl. destruct (lookup (d_val d) p) as [v|] eqn:E; [|congruence].
  destruct (lookup_focus _ _ _ E) as (pre0 & post0 & Hf0). destruct (exists_last Hp) as (q & x & ->).
  apply focus_split in Hf0. destruct Hf0 as (pre & c & post & pre2 & post2 & Hf & Hf2 & -> & ->).
  inversion Hf2; subst.
  - rewrite (delete_arr d q x w l1 e l2 pre post Hw Hf) by assumption.
    destruct (render_cut_elem w l1 e l2) as (sc & ec & A & W1 & W2 & B & Hr & _ & _ & _ & _ & Hcut & _).
    destruct (cut_local A sc W1 (render (e_val e)) W2 ec B) as (P & Y & Q & E1 & E2).
    exists (d_pre d ++ pre ++ P), Y, (Q ++ post ++ d_post d). split.
    + rewrite (text_focus _ _ _ _ _ Hf), Hr, E1. same_text.
    + rewrite Hcut, E2. f_equal. same_text.
  - rewrite (delete_obj d q w l1 m l2 pre post Hw Hf) by assumption.
    destruct (render_cut_mem w l1 m l2) as (sc & ec & A & W1 & W2 & B & Hr & _ & _ & _ & _ & _ & Hcut & _).
    destruct (cut_local A sc W1 (pair_text m) W2 ec B) as (P & Y & Q & E1 & E2).
    exists (d_pre d ++ pre ++ P), Y, (Q ++ post ++ d_post d). split.
    + rewrite (text_focus _ _ _ _ _ Hf), Hr, E1. same_text.
    + rewrite Hcut, E2. f_equal. same_text.
Qed.

Theorem set_local d p v : wf_doc d = true -> p <> [] -> lookup (d_val d) p = Some v ->
  exists A B, text d = A ++ render v ++ B /\ forall new, Set_ (text d) new p = Done (A ++ new ++ B).
Proof.
  intros Hw Hp Hl. destruct (lookup_focus _ _ _ Hl) as (pre & post & Hf).
  exists (d_pre d ++ pre), (post ++ d_post d). split; [apply (text_focus _ _ _ _ _ Hf)|].
  intro new. rewrite (set_present d p pre v post new Hw Hp Hf). f_equal. same_text.
Qed.

(** Adding only adds text. *)
Theorem add_local d p w els value : wf_doc d = true -> lookup (d_val d) p = Some (JArr w els) ->
  exists A B, text d = A ++ B /\
    Add_ (text d) (render value) p = Done (A ++ (match els with [] => [] | _ => [44] end) ++ render value ++ B).
Proof.
  intros Hw Hl. destruct (lookup_focus _ _ _ Hl) as (pre & post & Hf).
  exists (d_pre d ++ pre ++ 91 :: w ++ join (map elem_text els)), (93 :: post ++ d_post d). split.
  - rewrite (text_focus _ _ _ _ _ Hf), render_arr. same_text.
  - rewrite (add_arr d p pre w els post value Hw Hf). rewrite render_arr, map_app. cbn [map]. f_equal.
    unfold elem_text at 2. cbn [e_pre e_val e_post]. destruct els as [|e els].
    + cbn [map join app]. same_text.
    + rewrite join_snoc by discriminate. rewrite app_nil_r. same_text.
Qed.
