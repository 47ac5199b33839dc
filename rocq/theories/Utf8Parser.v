(** A Parser keeps UTF-8. *)
From Coq Require Import String.
From Verif Require Import GoStd Json Core Errors Api NoPanic Iter Typed Updates Parser SpecPtr ParserTypedGo SpecUtf8 Utf8Proofs Utf8More Utf8Calls SpecUtf8Calls.
From Verif Require Pointers ParseAny SpecScan AsWritten TypedGo TypedGoProofs ParserGo ParserGoWritten ParserTypedGoProofs JO.
From Verif Require Import GoLang.

Local Open Scope N_scope.

(** Every value is UTF-8; a node with children has no value or one that opens. *)
Fixpoint clear (n : node) : Prop := let 'Node l v d := n in utf8 l /\ utf8 v /\ fold_right (fun m P => clear m /\ P) True d.
Lemma clear_node l v d : clear (Node l v d) <-> utf8 l /\ utf8 v /\ Forall clear d.
Proof.
  cbn [clear]. assert (E : fold_right (fun m P => clear m /\ P) True d <-> Forall clear d); [|tauto].
  induction d as [|n d IH]; cbn [fold_right]; [split; constructor|]. rewrite IH, Forall_cons_iff. reflexivity.
Qed.
Definition clear_frame (f : frame) : Prop := utf8 (fr_label f) /\ utf8 (fr_value f) /\ Forall clear (fr_down f).
Lemma clear_close f : clear_frame f -> clear (close_frame f).
Proof. intros (H1 & H2 & H3). apply clear_node. split; [exact H1|]. split; [exact H2|apply Forall_rev, H3]. Qed.
Lemma clear_add n f : clear n -> clear_frame f -> clear_frame (frame_add n f).
Proof. intros Hn (H1 & H2 & H3). split; [exact H1|]. split; [exact H2|constructor; assumption]. Qed.
Lemma clear_onto : forall up n, clear n -> Forall clear_frame up -> Forall clear (close_onto n up).
Proof.
  induction up as [|f up IH]; intros n Hn H; [repeat constructor; exact Hn|]. inversion H as [|? ? H1 H2]; subst. cbn [close_onto]. destruct up as [|g up].
  - apply Forall_rev. constructor; [exact Hn|apply H1].
  - apply IH; [apply clear_close, clear_add; assumption|exact H2].
Qed.
Lemma clear_all up : Forall clear_frame up -> Forall clear (close_all up).
Proof.
  intro H. destruct up as [|f [|g up]]; cbn [close_all]; [constructor| |]; inversion H as [|? ? H1 H2]; subst; [apply Forall_rev, H1|].
  apply clear_onto; [apply clear_close, H1|exact H2].
Qed.
Lemma add_down_clear n up up' : clear n -> Forall clear_frame up -> add_down n up = Ok up' -> Forall clear_frame up'.
Proof. intros Hn H E. destruct up as [|f r]; [discriminate|]. cbn in E. injection E as <-. inversion H; subst. constructor; [apply clear_add; assumption|assumption]. Qed.
Lemma go_up_clear v up up' : utf8 v -> Forall clear_frame up -> go_up v up = Ok up' -> Forall clear_frame up'.
Proof.
  intros Hv H E. destruct up as [|f [|g r]]; [discriminate| |]; cbn in E; injection E as <-; [constructor|]. inversion H as [|? ? H1 H2]; subst. inversion H2 as [|? ? H3 H4]; subst.
  constructor; [|exact H4]. apply clear_add; [|exact H3]. apply clear_close. destruct H1 as (K1 & K2 & K3). split; [exact K1|]. split; [exact Hv|exact K3].
Qed.

Section Loop.
  Variable json : bytes.
  Hypothesis Hu : utf8 json.
  Definition stop_ok (n : nat) : Prop := n = O \/ nth_error json n = Some 34.
  Lemma key_clear s e k : cut json s -> stop_ok e -> slice json s e = Ok k -> utf8 k.
  Proof.
    intros Hs [->|He] H; [|eapply slice_cut; [exact Hs| |exact H]; apply (cut_before json e 34 Hu He); lia].
    unfold slice in H. destruct (_ && _)%bool; [|discriminate]. injection H as <-. apply utf8_nil.
  Qed.
  Lemma loop_clear : forall rest i inq start stop key vs last braces idx up ns, rest = skipn i json -> cut json start -> stop_ok stop -> utf8 key -> cut json vs ->
    Forall (cut json) braces -> Forall clear_frame up -> p_loop json rest i inq start stop key vs last braces idx up = Ok ns -> Forall clear ns.
  Proof.
    induction rest as [|c r IH]; intros i inq start stop key vs last braces idx up ns Hr Hs He Hk Hv Hb Hf H; cbn [p_loop] in H; [injection H as <-; apply clear_all, Hf|].
    apply skipn_step in Hr. destruct Hr as [Hc Hr].
    assert (L : c < 128 -> cut json i /\ cut json (S i)) by (intro; eapply cut_at; eassumption).
    destruct (c =? 34) eqn:E34.
    { apply N.eqb_eq in E34. subst c. pose proof (proj2 (L ltac:(lia))) as C. destruct inq; [destruct (qscan json i) as [[]|]|]; eapply IH in H; eauto; right; exact Hc. }
    destruct inq; [eapply IH in H; eauto|]. destruct (is_open c) eqn:Eo.
    { pose proof (L (open_low _ Eo)) as C. destruct (open_label last key idx) as [l| |] eqn:El; cbn [bind] in H; try discriminate. destruct up as [|f up]; [discriminate|].
      assert (Ll : utf8 l).
      { unfold open_label in El. destruct (last =? 58); [injection El as <-; exact Hk|]. destruct (seq_top idx); cbn [bind] in El; try discriminate. injection El as <-. apply itoa_utf8. }
      eapply IH in H; eauto; [apply C|constructor; [apply C|exact Hb]|]. constructor; [|exact Hf]. split; [exact Ll|]. split; [apply utf8_nil|constructor]. }
    assert (A : forall l v up', utf8 l -> slice json vs i = Ok v -> c < 128 -> add_down (Node l v []) up = Ok up' -> Forall clear_frame up').
    { intros l v up' Hl Hsl Hlo Ha. eapply add_down_clear; [|exact Hf|exact Ha]. apply clear_node. split; [exact Hl|]. split; [|constructor]. exact (slice_cut _ _ _ _ Hv (proj1 (L Hlo)) Hsl). }
    destruct (is_close c) eqn:Ec.
    { pose proof (close_low _ Ec) as Lo. pose proof (L Lo) as C.
      match type of H with context [bind ?X _] => destruct X as [[up1 vs1]| |] eqn:E1; cbn [bind] in H; try discriminate end.
      assert (K : Forall clear_frame up1 /\ cut json vs1).
      { destruct (last =? 58); [|destruct (last =? 44)].
        - destruct (slice json vs i) as [v| |] eqn:E2; cbn [bind] in E1; try discriminate. destruct (add_down _ up) as [u| |] eqn:E3; cbn [bind] in E1; try discriminate.
          injection E1 as <- <-. split; [exact (A _ _ _ Hk eq_refl Lo E3)|exact Hv].
        - destruct (seq_top idx) as [n| |]; cbn [bind] in E1; try discriminate.
          destruct (slice json vs i) as [v| |] eqn:E2; cbn [bind] in E1; try discriminate. destruct (add_down _ up) as [u| |] eqn:E3; cbn [bind] in E1; try discriminate.
          injection E1 as <- <-. split; [exact (A _ _ _ (itoa_utf8 _) eq_refl Lo E3)|apply C].
        - injection E1 as <- <-. split; [exact Hf|exact Hv]. }
      destruct K as [K1 K2]. destruct braces as [|bp braces]; [discriminate|]. cbn [seq_pop bind] in H. inversion Hb as [|? ? B1 B2]; subst.
      destruct (slice json bp (S i)) as [v| |] eqn:E2; cbn [bind] in H; try discriminate. destruct (seq_pop idx) as [[x idx']| |]; cbn [bind] in H; try discriminate.
      destruct (go_up v up1) as [up2| |] eqn:E3; cbn [bind] in H; try discriminate.
      eapply IH in H; eauto. eapply go_up_clear; [|exact K1|exact E3]. exact (slice_cut _ _ _ _ B1 (proj2 C) E2). }
    destruct (c =? 58) eqn:E58.
    { apply N.eqb_eq in E58. subst c. destruct (slice json start stop) as [k| |] eqn:E2; cbn [bind] in H; try discriminate.
      eapply IH in H; eauto; [exact (key_clear _ _ _ Hs He E2)|apply L; lia]. }
    destruct (c =? 44) eqn:E44; [|eapply IH in H; eauto].
    apply N.eqb_eq in E44. subst c.
    match type of H with context [bind ?X _] => destruct X as [up1| |] eqn:E1; cbn [bind] in H; try discriminate end.
    destruct (seq_inc idx) as [idx'| |]; cbn [bind] in H; try discriminate. eapply IH in H; eauto; [apply L; lia|].
    destruct (last =? 58); [|destruct (_ || _)%bool; [|injection E1 as <-; exact Hf]].
    - destruct (slice json vs i) as [v| |] eqn:E2; cbn [bind] in E1; try discriminate. exact (A _ _ _ Hk eq_refl ltac:(lia) E1).
    - destruct (seq_top idx) as [n| |]; cbn [bind] in E1; try discriminate. destruct (slice json vs i) as [v| |] eqn:E2; cbn [bind] in E1; try discriminate.
      exact (A _ _ _ (itoa_utf8 _) eq_refl ltac:(lia) E1).
  Qed.
End Loop.

Lemma skip_cut json : utf8 json -> forall rest i n, rest = skipn i json -> cut json i -> skip_space rest i = Ok n -> cut json n.
Proof.
  intro Hu. induction rest as [|c r IH]; intros i n Hr Hb H; cbn [skip_space] in H; [discriminate|]. apply skipn_step in Hr. destruct Hr as [Hc Hr].
  destruct (space c) eqn:E; [|injection H as <-; exact Hb]. apply IH in H; [exact H|exact Hr|]. apply (cut_at json i c Hu Hc), space_low, E.
Qed.
Lemma core_clear json ns : utf8 json -> pCore json = Ok ns -> Forall clear ns.
Proof.
  intros Hu H. unfold pCore in H. destruct (_ <? _)%nat; [injection H as <-; constructor|]. destruct (skip_space json 0) as [st| |] eqn:E; cbn [bind] in H; try discriminate.
  pose proof (skip_cut json Hu json 0 st eq_refl (cut_0 json Hu) E) as C.
  apply (loop_clear json Hu) in H; [exact H|reflexivity|exact C|left; reflexivity|apply utf8_nil|apply cut_0, Hu|constructor|].
  repeat constructor; apply utf8_nil.
Qed.

(** ** Parsers *)
Definition clear_parser (p : parser) : Prop := utf8 (p_json p) /\ clear (p_core p).
Lemma parse_clear json p : utf8 json -> Parse json = Ok p -> clear_parser p.
Proof.
  intros Hu H. unfold Parse in H. destruct (pCore json) as [ns| |] eqn:E; cbn [bind] in H; try discriminate. apply (core_clear _ _ Hu) in E. destruct ns as [|n ns]; [discriminate|].
  injection H as <-. inversion E; subst. split; assumption.
Qed.
Lemma find_clear x ns n : Forall clear ns -> find_node x ns = Some n -> clear n.
Proof. induction 1 as [|m ns Hm _ IH]; cbn [find_node]; [discriminate|]. destruct (bytes_eqb _ _); [intro H; injection H as <-; exact Hm|exact IH]. Qed.
Lemma down_clear n : clear n -> Forall clear (n_down n). Proof. destruct n. intro H. apply clear_node in H. apply H. Qed.
Lemma walk_clear : forall path n m, clear n -> n_walk n path = Ok m -> clear m.
Proof.
  induction path as [|x p IH]; intros n m Hn H; cbn [n_walk] in H; [injection H as <-; exact Hn|]. destruct (find_node x (n_down n)) as [d|] eqn:E; [|discriminate].
  apply IH in H; [exact H|]. exact (find_clear _ _ _ (down_clear _ Hn) E).
Qed.
Theorem pget_utf8 p path v : clear_parser p -> P_Get p path = Ok v -> utf8 v.
Proof.
  intros [Hj Hn] H. unfold P_Get in H. destruct path; [injection H as <-; exact Hj|]. destruct (n_walk (p_core p) _) as [n| |] eqn:E; cbn [bind] in H; try discriminate.
  eapply clean_utf8; [|exact H]. apply walk_clear in E; [|exact Hn]. destruct n. apply clear_node in E. apply E.
Qed.

Lemma upd_clear f : (forall n, clear n -> clear (f n)) -> forall path n, clear n -> clear (upd_node path f n).
Proof.
  intro Hf. induction path as [|x p IH]; intros n Hn; cbn [upd_node]; [apply Hf, Hn|]. destruct n as [l v d]. apply clear_node in Hn. destruct Hn as (H1 & H2 & H3).
  apply clear_node. split; [exact H1|]. split; [exact H2|]. induction H3 as [|m d Hm Hd IHd]; cbn [upd_first]; [constructor|].
  destruct (bytes_eqb _ _); constructor; auto.
Qed.
Lemma value_clear v n : utf8 v -> clear n -> clear (with_value v n).
Proof. destruct n. intros Hv H. apply clear_node in H. apply clear_node. tauto. Qed.
Lemma label_clear l n : utf8 l -> clear n -> clear (with_label l n).
Proof. destruct n. intros Hv H. apply clear_node in H. apply clear_node. tauto. Qed.
Lemma with_down_clear d n : Forall clear d -> clear n -> clear (with_down d n).
Proof. destruct n. intros Hv H. apply clear_node in H. apply clear_node. tauto. Qed.
Lemma append_clear c n : clear c -> clear n -> clear (append_node c n).
Proof. intros Hc Hn. apply with_down_clear; [|exact Hn]. apply Forall_app. split; [apply down_clear, Hn|repeat constructor; exact Hc]. Qed.
Lemma drop_clear x n : clear n -> clear (drop_label x n).
Proof. intro H. apply with_down_clear; [|exact H]. apply Forall_forall. intros m Hm. apply filter_In in Hm. apply down_clear in H. rewrite Forall_forall in H. apply H, Hm. Qed.
Lemma relabel_clear : forall ns i z, Forall clear ns -> Forall clear (relabel ns i z).
Proof. induction ns as [|n ns IH]; intros i z H; cbn [relabel]; [constructor|]. inversion H; subst. constructor; [|apply IH; assumption]. destruct (_ <=? _)%Z; [apply label_clear; [apply itoa_utf8|]|]; assumption. Qed.
Lemma n_insert_clear ns z ns' : Forall clear ns -> n_insert ns z = Ok ns' -> Forall clear ns'.
Proof.
  intros H E. unfold n_insert in E. destruct ns as [|n ns]; [discriminate|]. destruct (_ <? _)%Z; [discriminate|]. destruct (_ <? _)%Z; [discriminate|]. injection E as <-. apply (relabel_clear (n :: ns) 0 z), H.
Qed.

Definition keeps_clear (r : pres) : Prop := match r with PRet p _ => clear_parser p | PPanic => True end.
Lemma clear_ret p e : clear_parser p -> keeps_clear (PRet p e). Proof. intro H. exact H. Qed.
Lemma bind_clear {A} p (r : res A) k : clear_parser p -> (forall a, r = Ok a -> keeps_clear (k a)) -> keeps_clear (p_bind p r k).
Proof. intros Hp H. destruct r; cbn; [apply H; reflexivity|exact Hp|exact I]. Qed.
Lemma pure_clear {A} (r : res A) k : (forall a, r = Ok a -> keeps_clear (k a)) -> keeps_clear (p_pure r k).
Proof. intros H. destruct r; cbn; [apply H; reflexivity|exact I|exact I]. Qed.
Lemma refresh_clear : forall paths p, clear_parser p -> keeps_clear (refresh paths p).
Proof.
  induction paths as [|a r IH]; intros p [Hj Hn]; cbn [refresh]; [split; assumption|]. destruct (Get (p_json p) a) as [v|e|] eqn:E; [|split; [exact Hj|apply upd_clear; [|exact Hn]; intros; apply value_clear; [apply utf8_nil|assumption]]|exact I].
  apply IH. split; [exact Hj|]. apply upd_clear; [|exact Hn]. intros. apply value_clear; [exact (get_utf8 _ _ _ Hj E)|assumption].
Qed.
Lemma refresh_quiet_clear : forall paths p, clear_parser p -> keeps_clear (refresh_quiet paths p).
Proof.
  induction paths as [|a r IH]; intros p [Hj Hn]; cbn [refresh_quiet]; [split; assumption|]. destruct (Get (p_json p) a) as [v|e|] eqn:E; [| |exact I].
  - apply IH. split; [exact Hj|]. apply upd_clear; [|exact Hn]. intros. apply value_clear; [exact (get_utf8 _ _ _ Hj E)|assumption].
  - apply IH. split; [exact Hj|]. apply upd_clear; [|exact Hn]. intros. apply value_clear; [apply utf8_nil|assumption].
Qed.
Lemma text_clear p r k : clear_parser p -> gives8 (p_json p) r -> (forall q, clear_parser q -> keeps_clear (k q)) -> keeps_clear (take_text p r k).
Proof.
  intros [Hj Hn] [H1 H2] Hk. destruct r as [out|o e|]; cbn; [apply Hk; split; [apply H1; reflexivity|exact Hn]| |exact I].
  apply Hk. split; [|exact Hn]. cbn. destruct (H2 o e eq_refl) as [->| ->]; [exact Hj|apply utf8_nil].
Qed.
Lemma or_fail_clear p r k : clear_parser p -> gives8 (p_json p) r -> (forall q, clear_parser q -> keeps_clear (k q)) -> keeps_clear (take_or_fail p r k).
Proof.
  intros [Hj Hn] [H1 H2] Hk. destruct r as [out|o e|]; cbn; [apply Hk; split; [apply H1; reflexivity|exact Hn]| |exact I].
  split; [|exact Hn]. cbn. destruct (H2 o e eq_refl) as [->| ->]; [exact Hj|apply utf8_nil].
Qed.
Lemma before_end_clear p t k c : clear_parser p -> utf8 t -> c < 128 -> (2 <= length (p_json p))%nat -> last (p_json p) 0 = c -> (forall q, clear_parser q -> keeps_clear (k q)) -> keeps_clear (put_before_end p t k).
Proof.
  intros [Hj Hn] Ht Hc Hl Hlast Hk. unfold put_before_end. apply pure_clear. intros j E. apply Hk. split; [|exact Hn]. cbn [p_json].
  assert (C : cut (p_json p) (pred (length (p_json p)))).
  { apply (cut_before _ _ c Hj); [|exact Hc]. destruct (p_json p) as [|x r] eqn:Ej; [cbn in Hl; lia|]. rewrite <- Hlast.
    rewrite (app_removelast_last 0 (l := x :: r)) at 1 2 by discriminate. rewrite app_length. cbn [length]. rewrite Nat.add_1_r. cbn [pred]. rewrite nth_error_app2 by lia. rewrite Nat.sub_diag. reflexivity. }
  exact (replace_utf8 _ _ _ _ _ C C Ht E).
Qed.

Lemma set_clear p v path : clear_parser p -> utf8 v -> keeps_clear (P_Set p v path).
Proof.
  intros Hp Hv. destruct Hp as [Hj Hn]. unfold P_Set. destruct path as [|x path]; [split; assumption|]. apply bind_clear; [split; assumption|]. intros n _. cbv zeta.
  assert (G : forall f, (forall n, clear n -> clear (f n)) -> keeps_clear (take_text (Par (upd_node (x :: path) f (p_core p)) (p_json p)) (Set_ (p_json p) v (x :: path)) (refresh (tl (ancestors (x :: path)))))).
  { intros f Hf. apply text_clear; [split; [exact Hj|apply upd_clear; assumption]|apply g_set; assumption|apply refresh_clear]. }
  destruct (_ && _)%bool; [apply pure_clear; intros d Hd|]; apply G.
  - intros m Hm. destruct m. apply clear_node in Hm. apply clear_node. split; [apply Hm|]. split; [exact Hv|exact (core_clear _ _ Hv Hd)].
  - intros m Hm. apply value_clear; assumption.
Qed.
Lemma setkey_clear p k path : clear_parser p -> utf8 k -> keeps_clear (P_SetKey p k path).
Proof.
  intros Hp Hk. unfold P_SetKey. destruct path as [|x path]; [exact Hp|]. destruct k as [|c k]; [exact Hp|]. apply bind_clear; [exact Hp|]. intros n _. apply pure_clear. intros u _.
  destruct (has_label _ _); [exact Hp|]. destruct Hp as [Hj Hn]. apply text_clear; [split; [exact Hj|apply upd_clear; [|exact Hn]; intros; apply label_clear; assumption]|apply g_setkey; assumption|apply refresh_quiet_clear].
Qed.
Lemma delete_clear p path : clear_parser p -> keeps_clear (P_Delete p path).
Proof.
  intros Hp. unfold P_Delete. destruct path as [|x path]; [exact Hp|]. apply bind_clear; [exact Hp|]. intros n _.
  destruct Hp as [Hj Hn]. apply or_fail_clear; [split; [exact Hj|apply upd_clear; [|exact Hn]; intros; apply drop_clear; assumption]|apply g_delete; assumption|apply refresh_clear].
Qed.
Lemma new_clear l v o : utf8 l -> utf8 v -> (forall d, o = Some d -> Forall clear d) -> clear (Node l v (match o with Some d => d | None => [] end)).
Proof. intros Hl Hv Ho. apply clear_node. split; [exact Hl|]. split; [exact Hv|]. destruct o; [apply Ho; reflexivity|constructor]. Qed.
Lemma comma_utf8 (x : bool) t : utf8 t -> utf8 ((if x then [44] else []) ++ t).
Proof. intro H. destruct x; [apply utf8_cons; [lia|exact H]|exact H]. Qed.
Lemma addkv_clear p k v path : clear_parser p -> utf8 k -> utf8 v -> keeps_clear (P_AddKeyValue p k v path).
Proof.
  intros Hp Hk Hv. unfold P_AddKeyValue. destruct k as [|c0 k0]; [exact Hp|]. set (k := c0 :: k0) in *. apply bind_clear; [exact Hp|]. intros json Hg. cbv zeta.
  assert (N : forall f : option (list node) -> pres, (forall o, (forall d, o = Some d -> Forall clear d) -> keeps_clear (f o)) ->
    keeps_clear (if (2 <=? length k)%nat then p_pure (at_ v 0) (fun c => if is_open c then p_pure (pCore v) (fun d => f (Some d)) else f None) else f None)).
  { intros f Hf. destruct (2 <=? length k)%nat; [|apply Hf; discriminate]. apply pure_clear. intros c _. destruct (is_open c); [|apply Hf; discriminate].
    apply pure_clear. intros d Hd. apply Hf. intros d' E. injection E as <-. exact (core_clear _ _ Hv Hd). }
  destruct path as [|x path].
  - cbn [P_Get] in Hg. injection Hg as <-. destruct (has_label _ _); [exact Hp|]. destruct (2 <=? length (p_json p))%nat eqn:E2; [|exact Hp]. destruct (_ && _)%bool eqn:E3; [|exact Hp].
    apply andb_true_iff in E3. destruct E3 as [_ E3]. apply N.eqb_eq in E3. apply Nat.leb_le in E2.
    refine (N (fun o => put_before_end (Par (append_node (Node k v (match o with Some d => d | None => [] end)) (p_core p)) (p_json p)) ((if match o with Some _ => negb (length (p_json p) =? 2)%nat | None => true end then [44] else []) ++ pair_text k v) (fun p => PRet p None)) _). intros o Ho.
    apply (before_end_clear _ _ _ 125); [|apply comma_utf8|lia|exact E2|exact E3|intros; assumption].
    + split; [apply Hp|]. apply append_clear; [apply new_clear; assumption|apply Hp].
    + unfold pair_text. apply utf8_cons; [lia|]. apply utf8_app; [exact Hk|]. apply utf8_cons; [lia|]. apply utf8_cons; [lia|exact Hv].
  - apply bind_clear; [exact Hp|]. intros n _. apply pure_clear. intros u _. destruct (has_label _ _); [exact Hp|]. destruct (2 <=? length json)%nat; [|exact Hp]. destruct (_ && _)%bool; [|exact Hp].
    refine (N (fun o => take_or_fail (Par (upd_node (x :: path) (append_node (Node k v (match o with Some d => d | None => [] end))) (p_core p)) (p_json p)) (AddKeyValue (p_json p) k (Some v) (x :: path)) (refresh (ancestors (x :: path)))) _). intros o Ho. apply or_fail_clear; [split; [apply Hp|]|apply g_addkv; [apply Hp|exact Hk|intro; apply some8, Hv]|apply refresh_clear].
    apply upd_clear; [|apply Hp]. intros m Hm. apply append_clear; [apply new_clear; assumption|exact Hm].
Qed.
Lemma nested_clear v (f : option (list node) -> pres) : utf8 v -> (forall o, (forall d, o = Some d -> Forall clear d) -> keeps_clear (f o)) ->
  keeps_clear (if (2 <=? length v)%nat && opens v then p_pure (pCore v) (fun d => f (Some d)) else f None).
Proof.
  intros Hv Hf. destruct (_ && _)%bool; [|apply Hf; discriminate]. apply pure_clear. intros d Hd. apply Hf. intros d' E. injection E as <-. exact (core_clear _ _ Hv Hd).
Qed.
Lemma padd_clear p v path : clear_parser p -> utf8 v -> keeps_clear (P_Add p v path).
Proof.
  intros Hp Hv. unfold P_Add. destruct v as [|c0 v0]; [exact Hp|]. set (v := c0 :: v0) in *. apply bind_clear; [exact Hp|]. intros json Hg. cbv zeta. destruct path as [|x path].
  - cbn [P_Get] in Hg. injection Hg as <-. destruct (2 <=? length (p_json p))%nat eqn:E2; [|exact Hp]. destruct ((hd 0 _ =? _) && _)%bool eqn:E3; [|exact Hp].
    apply andb_true_iff in E3. destruct E3 as [_ E3]. apply N.eqb_eq in E3. apply Nat.leb_le in E2.
    refine (nested_clear v (fun o => put_before_end (Par (append_node (Node (itoa (Z.of_nat (length (n_down (p_core p))))) v (match o with Some d => d | None => [] end)) (p_core p)) (p_json p)) ((if match o with Some _ => negb (length (p_json p) =? 2)%nat | None => true end then [44] else []) ++ v) (fun p => PRet p None)) Hv _). intros o Ho.
    apply (before_end_clear _ _ _ 93); [|apply comma_utf8, Hv|lia|exact E2|exact E3|intros; assumption].
    split; [apply Hp|]. apply append_clear; [apply new_clear; [apply itoa_utf8|assumption|assumption]|apply Hp].
  - apply bind_clear; [exact Hp|]. intros n _. destruct (2 <=? length json)%nat; [|exact Hp]. destruct ((hd 0 _ =? _) && _)%bool; [|exact Hp].
    refine (nested_clear v (fun o => take_or_fail (Par (upd_node (x :: path) (append_node (Node (itoa (Z.of_nat (length (n_down n)))) v (match o with Some d => d | None => [] end))) (p_core p)) (p_json p)) (Add_ (p_json p) v (x :: path)) (refresh (match o with Some _ => removelast (ancestors (x :: path)) | None => ancestors (x :: path) end))) Hv _). intros o Ho. apply or_fail_clear; [split; [apply Hp|]|apply g_add; [apply Hp|exact Hv]|intros; destruct o; apply refresh_clear; assumption].
    apply upd_clear; [|apply Hp]. intros m Hm. apply append_clear; [apply new_clear; [apply itoa_utf8|assumption|assumption]|exact Hm].
Qed.
Lemma forall_removelast {A} (P : A -> Prop) : forall l, Forall P l -> Forall P (removelast l).
Proof. induction 1 as [|x l Hx Hl IH]; [constructor|]. cbn [removelast]. destruct l; [constructor|constructor; assumption]. Qed.
Lemma pinsert_clear p z v path : clear_parser p -> utf8 v -> keeps_clear (P_Insert p z v path).
Proof.
  intros Hp Hv. unfold P_Insert. destruct v as [|c0 v0]; [exact Hp|]. set (v := c0 :: v0) in *. apply bind_clear; [exact Hp|]. intros json Hg. cbv zeta. destruct path as [|x path].
  - cbn [P_Get] in Hg. injection Hg as <-. destruct (2 <=? length (p_json p))%nat eqn:E2; [|exact Hp]. destruct ((hd 0 _ =? _) && _)%bool eqn:E3; [|exact Hp].
    refine (nested_clear v (fun o => p_bind p (n_insert (n_down (p_core p)) z) (fun ns =>
              match o with
              | Some d =>
                  take_or_fail (Par (with_down ns (p_core p)) (p_json p)) (Insert (p_json p) z v []) (fun p =>
                  p_bind p (n_insert (n_down (p_core p)) z) (fun ns =>
                  PRet (Par (append_node (Node (itoa z) [] d) (with_down ns (p_core p))) (p_json p)) None))
              | None =>
                  take_or_fail (Par (append_node (Node (itoa z) v []) (with_down ns (p_core p))) (p_json p))
                    (Insert (p_json p) z v []) (fun p =>
                  p_bind p (n_insert (n_down (p_core p)) z) (fun ns =>
                  PRet (Par (with_down (removelast ns ++ [Node (itoa z) v []]) (p_core p)) (p_json p)) None))
              end)) Hv _).
    intros o Ho. apply bind_clear; [exact Hp|]. intros ns Hns. apply n_insert_clear in Hns; [|apply down_clear, Hp].
    assert (W : clear (with_down ns (p_core p))) by (apply with_down_clear; [exact Hns|apply Hp]). destruct o as [d|].
    + apply or_fail_clear; [split; [apply Hp|exact W]|apply g_insert; [apply Hp|exact Hv]|]. intros q Hq. apply bind_clear; [exact Hq|]. intros ns' Hns'.
      apply n_insert_clear in Hns'; [|apply down_clear, Hq]. split; [apply Hq|]. apply append_clear; [apply clear_node; split; [apply itoa_utf8|split; [apply utf8_nil|apply Ho; reflexivity]]|].
      apply with_down_clear; [exact Hns'|apply Hq].
    + assert (Z0 : clear (Node (itoa z) v [])) by (apply clear_node; split; [apply itoa_utf8|split; [exact Hv|constructor]]).
      apply or_fail_clear; [split; [apply Hp|apply append_clear; [exact Z0|exact W]]|apply g_insert; [apply Hp|exact Hv]|]. intros q Hq. apply bind_clear; [exact Hq|]. intros ns' Hns'.
      apply n_insert_clear in Hns'; [|apply down_clear, Hq]. split; [apply Hq|]. apply with_down_clear; [|apply Hq]. apply Forall_app. split; [apply forall_removelast, Hns'|constructor; [exact Z0|constructor]].
  - apply bind_clear; [exact Hp|]. intros n Hw. destruct (2 <=? length json)%nat; [|exact Hp]. destruct ((hd 0 _ =? _) && _)%bool; [|exact Hp].
    apply walk_clear in Hw; [|apply Hp]. 
    refine (nested_clear v (fun o => p_bind p (n_insert (n_down n) z) (fun ns =>
              take_or_fail (Par (upd_node (x :: path) (fun n => append_node (Node (itoa z) v (match o with Some d => d | None => [] end)) (with_down ns n)) (p_core p)) (p_json p))
                (Insert (p_json p) z v (x :: path)) (refresh (ancestors (x :: path))))) Hv _).
    intros o Ho. apply bind_clear; [exact Hp|]. intros ns Hns. apply n_insert_clear in Hns; [|apply down_clear, Hw].
    apply or_fail_clear; [split; [apply Hp|]|apply g_insert; [apply Hp|exact Hv]|apply refresh_clear].
    apply upd_clear; [|apply Hp]. intros m Hm. apply append_clear; [apply new_clear; [apply itoa_utf8|assumption|assumption]|apply with_down_clear; assumption].
Qed.

Lemma do_clear pf c p : clear_parser p -> tcall_utf8 c -> keeps_clear (t_do pf c p).
Proof.
  intros Hp Hc. pose proof (format_utf8 pf) as F. pose proof itoa_utf8 as Z0. pose proof bool_utf8 as B.
  destruct c as [[]| | | | | | | | | | | | | | | |]; cbn [t_do Pointers.p_do tcall_utf8] in *; try match type of Hc with _ /\ _ => destruct Hc end;
    unfold P_SetString, P_SetInt, P_SetFloat, P_SetBool, P_AddKeyValueString, P_AddKeyValueInt, P_AddKeyValueFloat, P_AddKeyValueBool, P_AddString, P_AddInt, P_AddFloat, P_AddBool, P_InsertString, P_InsertInt, P_InsertFloat, P_InsertBool;
    repeat match goal with |- keeps_clear (match ?x with _ => _ end) => destruct x | |- keeps_clear (if ?x then _ else _) => destruct x end;
    auto using set_clear, setkey_clear, delete_clear, addkv_clear, padd_clear, pinsert_clear, clear_ret, quote_utf8; exact I.
Qed.
Lemma calls_clear pf cs : forall p p' es, clear_parser p -> Forall tcall_utf8 cs -> t_calls pf cs p = Some (p', es) -> clear_parser p'.
Proof.
  induction cs as [|c cs IH]; intros p p' es Hp Hc H; cbn [t_calls] in H; [injection H as <- _; exact Hp|]. inversion Hc as [|? ? H1 H2]; subst.
  pose proof (do_clear pf c p Hp H1) as K. destruct (t_do pf c p) as [q e|]; [|discriminate]. cbn in K. destruct (t_calls pf cs q) as [[q' es']|] eqn:E; [|discriminate].
  injection H as <- _. exact (IH _ _ _ K H2 E).
Qed.

Theorem parser_utf8 pf t cs p p' es : utf8 t -> Parse t = Ok p -> Forall tcall_utf8 cs -> t_calls pf cs p = Some (p', es) ->
  utf8 (p_json p') /\ forall path v, P_Get p' path = Ok v -> utf8 v.
Proof.
  intros Hu Hp Hc H. pose proof (calls_clear pf cs _ _ _ (parse_clear _ _ Hu Hp) Hc H) as K. split; [apply K|]. intros path v. apply pget_utf8, K.
Qed.

(** ** GetNew *)
Lemma removelast_utf8 x y : utf8 (x ++ [y]) -> y < 128 -> utf8 x.
Proof. intros H Hy. apply (utf8_cut x y [] Hy), H. Qed.
Lemma dive_clear n : clear n -> ParseAny.strong n -> n_down n <> [] -> forall t, dive n = Ok t -> utf8 t.
Proof.
  induction n as [l v d IH] using ParseAny.node_ind'. intros Hn Hs Hd t Ht. cbn [n_down] in Hd. apply ParseAny.strong_node in Hs. destruct Hs as (_ & Hv & Hs). destruct (Hv Hd) as (c & r & -> & Hc).
  apply clear_node in Hn. destruct Hn as (_ & _ & Hn). cbn [dive] in Ht. unfold at_ in Ht. cbn [nth_error bind] in Ht.
  assert (G : forall items, (fix go (ds : list node) : res bytes :=
           match ds with
           | [] => Ok []
           | (Node l v dd as d) :: r =>
               do val <- (match dd with [] => Ok v | _ => dive d end);
               do rest <- go r;
               Ok ((if c =? 123 then packKeyValue l val else []) ++ (if c =? 91 then val else []) ++ 44 :: rest)
           end) d = Ok items -> utf8 items /\ (d <> [] -> exists items', items = items' ++ [44])).
  { clear Hd Hv Ht. induction d as [|x d IHd]; intros items E; [injection E as <-; split; [apply utf8_nil|contradiction]|].
    destruct x as [xl xv xd]. inversion IH as [|? ? IH1 IH2]; subst. inversion Hs as [|? ? Hs1 Hs2]; subst. inversion Hn as [|? ? Hn1 Hn2]; subst. specialize (IHd IH2 Hn2 Hs2).
    destruct (match xd with [] => Ok xv | _ => dive (Node xl xv xd) end) as [val| |] eqn:Ev; cbn [bind] in E; try discriminate.
    assert (Uv : utf8 val).
    { destruct xd as [|y xd]; [injection Ev as <-; apply clear_node in Hn1; apply Hn1|]. exact (IH1 Hn1 Hs1 ltac:(discriminate) _ Ev). }
    apply clear_node in Hn1. destruct Hn1 as (Hl & _).
    match type of E with context [bind ?X _] => destruct X as [rest| |] eqn:Er; cbn [bind] in E; try discriminate end. injection E as <-. destruct (IHd _ eq_refl) as [Ur Ul]. split.
    - apply utf8_app; [destruct (c =? 123); [|apply utf8_nil]|apply utf8_app; [destruct (c =? 91); [exact Uv|apply utf8_nil]|apply utf8_cons; [lia|exact Ur]]].
      unfold packKeyValue. apply utf8_cons; [lia|]. apply utf8_app; [exact Hl|]. apply utf8_cons; [lia|]. apply utf8_cons; [lia|exact Uv].
    - intros _. destruct d as [|y d]; [injection Er as <-; eexists; rewrite app_assoc; reflexivity|]. destruct (Ul ltac:(discriminate)) as (i' & ->). eexists. rewrite !app_assoc. change (44 :: i' ++ [44]) with ((44 :: i') ++ [44]). rewrite app_assoc. reflexivity. }
  match type of Ht with context [bind ?X _] => destruct X as [items| |] eqn:Ei; cbn [bind] in Ht; try discriminate end. destruct (G _ eq_refl) as [G1 G2]. destruct (G2 Hd) as (i' & ->). injection Ht as <-.
  rewrite removelast_last. replace (match i' ++ [44] with [] => [] | _ :: _ => c :: i' end) with (c :: i') by (destruct i'; reflexivity).
  unfold SpecScan.opening in Hc. apply orb_true_iff in Hc. apply removelast_utf8 in G1; [|lia].
  destruct Hc as [Hc|Hc]; apply N.eqb_eq in Hc; subst c; (apply utf8_app; [apply utf8_cons; [lia|exact G1]|apply utf8_low; vm_compute; reflexivity]).
Qed.
Theorem get_new_utf8 t p path v : utf8 t -> SpecScan.balanced (SpecScan.skeleton t) -> Parse t = Ok p -> P_GetNew p path = Ok v -> utf8 v.
Proof.
  intros Hu Hb Hp H. destruct (ParseAny.parse_weak _ _ Hp) as (_ & _ & Hs). specialize (Hs Hb). pose proof (proj2 (parse_clear _ _ Hu Hp)) as Hc.
  unfold P_GetNew in H. destruct (n_walk (p_core p) path) as [n| |] eqn:E; [|injection H as <-; apply utf8_nil|discriminate].
  pose proof (walk_clear _ _ _ Hc E) as Kc. pose proof (ParseAny.walk_strong _ _ _ Hs E) as Ks. destruct n as [l x d]. cbn [n_down n_value] in H. destruct d as [|y d].
  - eapply clean_utf8; [|exact H]. apply clear_node in Kc. apply Kc.
  - destruct (dive (Node l x (y :: d))) as [u| |] eqn:Ed; cbn [bind] in H; try discriminate. eapply clean_utf8; [|exact H]. exact (dive_clear _ Kc Ks ltac:(discriminate) _ Ed).
Qed.

(** ** As written in Go *)
Lemma jcall_octets8 c : jcall_utf8 c -> AsWritten.jcall_octets c.
Proof.
  destruct c; cbn [jcall_utf8 AsWritten.jcall_octets]; try match goal with |- _ /\ _ -> _ => intros [H1 H2]; split end; auto using utf8_octets;
    (destruct value; [apply utf8_octets, H2; reflexivity|constructor]).
Qed.
Lemma tcall_octets8 c : tcall_utf8 c -> tcall_octets c.
Proof.
  destruct c as [[]| | | | | | | | | | | | | | | |]; cbn [tcall_utf8 tcall_octets AsWritten.pcall_octets]; try match goal with |- _ /\ _ -> _ => intros [H1 H2]; split end; auto using utf8_octets.
Qed.
Theorem jo_written_utf8 pf cs body : utf8 body -> Forall jcall_utf8 cs ->
  (exists body' es, utf8 body' /\ AsWritten.eventually (fun fuel => TypedGo.calls_j fuel pf cs body = Ret (body', es))) \/
  AsWritten.eventually (fun fuel => TypedGo.calls_j fuel pf cs body = Pan).
Proof.
  intros Hb Hc. pose proof (TypedGoProofs.calls_j_spec pf cs body (utf8_octets _ Hb) (Forall_impl _ jcall_octets8 Hc)) as K.
  destruct (JO.jo_run pf body cs) as [[body' es]|] eqn:E; [left; exists body', es; split; [exact (jo_utf8 _ _ _ _ _ Hb Hc E)|exact K]|right; exact K].
Qed.
Theorem parser_written_utf8 pf t cs : utf8 t -> Forall tcall_utf8 cs -> (exists p, Parse t = Ok p) ->
  exists q, AsWritten.eventually (fun fuel => ParserGo.Parse_go (ParserGo.as_written fuel) t = Ret (Some q, None)) /\
    ((exists q' es, AsWritten.eventually (fun fuel => calls_t (ParserGo.as_written fuel) pf cs q = Ret (q', es)) /\ utf8 (Pointers.q_json q') /\
      forall path, (exists v e, utf8 v /\ AsWritten.eventually (fun fuel => ParserGo.Get_p (ParserGo.as_written fuel) q' path = Ret (v, e))) \/
                   AsWritten.eventually (fun fuel => ParserGo.Get_p (ParserGo.as_written fuel) q' path = Pan)) \/
     AsWritten.eventually (fun fuel => calls_t (ParserGo.as_written fuel) pf cs q = Pan)).
Proof.
  intros Hu Hc [p Hp]. pose proof (ParserTypedGoProofs.typed_history_written pf t cs (utf8_octets _ Hu) (Forall_impl _ tcall_octets8 Hc)) as K. rewrite Hp in K.
  destruct K as (q & K1 & K2). exists q. split; [exact K1|]. destruct (t_calls pf cs p) as [[p' es]|] eqn:E; [|right; exact K2]. left.
  destruct K2 as (q' & K2 & K3 & K4). destruct (parser_utf8 _ _ _ _ _ _ Hu Hp Hc E) as [U1 U2]. exists q', es. split; [exact K2|]. split; [rewrite K3; exact U1|].
  intro path. pose proof (ParserGoWritten.Get_written q' path) as G. rewrite (K4 path) in G. specialize (U2 path).
  destruct (P_Get p' path) as [v|e|]; [left; exists v, None; split; [apply U2; reflexivity|exact G]|left; exists [], (Some e); split; [apply utf8_nil|exact G]|right; exact G].
Qed.
