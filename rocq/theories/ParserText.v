(** C57: what calls on a Parser do to the text it holds; any parser, any arguments. *)
From Coq Require Import String.
From Verif Require Import GoStd Json Spec SpecProofs Domains Core Skip Focus CoreProofs Errors Api ApiProofs Updates Ops History Iter SpecParser Parser ParserOps ParserInsert.
From Verif Require LookupFails SpecFails.

Local Open Scope N_scope.

Lemma refresh_text l : forall p p' e, refresh l p = PRet p' e -> p_json p' = p_json p.
Proof.
  induction l as [|a l IH]; intros p p' e H; cbn [refresh] in H; [injection H as <- _; reflexivity|].
  destruct (Get (p_json p) a); [apply IH in H; exact H|injection H as <- _; reflexivity|discriminate].
Qed.
Lemma refresh_quiet_text l : forall p p' e, refresh_quiet l p = PRet p' e -> p_json p' = p_json p /\ e = None.
Proof.
  induction l as [|a l IH]; intros p p' e H; cbn [refresh_quiet] in H; [injection H as <- <-; split; reflexivity|].
  destruct (Get (p_json p) a); [apply IH in H; exact H|apply IH in H; exact H|discriminate].
Qed.

(** [r] is the answer of the package's function on the text [t]. *)
Definition honest (t : bytes) (r : upd) : Prop := forall o e, r = Fail o e -> o = Some t.

Lemma take_text_text p r k p' e : honest (p_json p) r -> (forall p1 p2 e2, k p1 = PRet p2 e2 -> p_json p2 = p_json p1) ->
  take_text p r k = PRet p' e -> Some (p_json p') = kept (p_json p) r.
Proof.
  intros Hh Hk H. unfold take_text in H. destruct r as [out|o er|]; [apply Hk in H; cbn in *; congruence| |discriminate].
  apply Hk in H. rewrite (Hh o er eq_refl) in H. cbn in *. congruence.
Qed.
Lemma take_or_fail_text p r k p' e : honest (p_json p) r -> (forall p1 p2 e2, k p1 = PRet p2 e2 -> p_json p2 = p_json p1) ->
  take_or_fail p r k = PRet p' e -> Some (p_json p') = kept (p_json p) r /\ (e = None -> r = Done (p_json p')).
Proof.
  intros Hh Hk H. unfold take_or_fail in H. destruct r as [out|o er|]; [apply Hk in H; cbn in *; rewrite H; auto| |discriminate].
  rewrite (Hh o er eq_refl) in H. injection H as <- <-. split; [reflexivity|discriminate].
Qed.

Lemma p_bind_text {A} p (r : res A) k p' e : p_bind p r k = PRet p' e ->
  (p' = p /\ e <> None) \/ exists a, r = Ok a /\ k a = PRet p' e.
Proof. unfold p_bind. destruct r as [a|er|]; intro H; [right; eauto|left; injection H as <- <-; split; [reflexivity|discriminate]|discriminate]. Qed.
Lemma p_pure_text {A} (r : res A) k p' e : p_pure r k = PRet p' e -> exists a, r = Ok a /\ k a = PRet p' e.
Proof. unfold p_pure. destruct r as [a|er|]; intro H; [eauto|discriminate|discriminate]. Qed.

(** What a call may do to the text: nothing, reporting it, or what the function does. *)
Definition mirrors (p : parser) (r : upd) (p' : parser) (e : option err) : Prop :=
  (p_json p' = p_json p /\ e <> None) \/ Some (p_json p') = kept (p_json p) r.

Theorem set_text p new q p' e : P_Set p new q = PRet p' e -> mirrors p (Set_ (p_json p) new q) p' e.
Proof.
  unfold P_Set. destruct q as [|x q]; [intro H; injection H as <- <-; left; split; [reflexivity|discriminate]|]. intro H.
  apply p_bind_text in H. destruct H as [[-> H]|(n & Hn & H)]; [left; split; [reflexivity|exact H]|]. right. cbv zeta in H.
  assert (T : forall f, take_text (Par (upd_node (x :: q) f (p_core p)) (p_json p)) (Set_ (p_json p) new (x :: q)) (refresh (tl (ancestors (x :: q)))) = PRet p' e ->
    Some (p_json p') = kept (p_json p) (Set_ (p_json p) new (x :: q))).
  { intros f T. apply take_text_text in T; [exact T| |].
    - intros o er E. eapply set_fail. exact E.
    - apply refresh_text. }
  destruct (_ && _)%bool; [|eapply T; exact H]. apply p_pure_text in H. destruct H as (dn & _ & H). eapply T. exact H.
Qed.

Theorem setkey_text p k q p' e : P_SetKey p k q = PRet p' e -> mirrors p (SetKey (p_json p) k q) p' e.
Proof.
  unfold P_SetKey. destruct q as [|x q]; [intro H; injection H as <- <-; left; split; [reflexivity|discriminate]|].
  destruct k as [|c k]; [intro H; injection H as <- <-; left; split; [reflexivity|discriminate]|]. intro H.
  apply p_bind_text in H. destruct H as [[-> H]|(n & Hn & H)]; [left; split; [reflexivity|exact H]|].
  apply p_pure_text in H. destruct H as (up & _ & H).
  destruct (has_label _ _); [injection H as <- <-; left; split; [reflexivity|discriminate]|]. right.
  apply take_text_text in H; [exact H| |].
  - intros o er E. eapply setkey_fail. exact E.
  - intros p1 p2 e2 H2. apply refresh_quiet_text in H2. apply H2.
Qed.

(** The others report every failure of the function. *)
Definition mirrors' (p : parser) (r : upd) (p' : parser) (e : option err) : Prop :=
  ((p_json p' = p_json p /\ e <> None) \/ Some (p_json p') = kept (p_json p) r) /\ (e = None -> r = Done (p_json p')).
Lemma refused' p r p' e : p' = p -> e <> None -> mirrors' p r p' e.
Proof. intros -> He. split; [left; split; [reflexivity|exact He]|contradiction]. Qed.
Lemma kept' p r p' e : Some (p_json p') = kept (p_json p) r /\ (e = None -> r = Done (p_json p')) -> mirrors' p r p' e.
Proof. intros [H1 H2]. split; [right; exact H1|exact H2]. Qed.

Theorem delete_text p q p' e : P_Delete p q = PRet p' e -> mirrors' p (Delete (p_json p) q) p' e.
Proof.
  unfold P_Delete. destruct q as [|x q]; [intro H; injection H as <- <-; apply refused'; [reflexivity|discriminate]|]. intro H.
  apply p_bind_text in H. destruct H as [[-> H]|(n & Hn & H)]; [apply refused'; [reflexivity|exact H]|].
  apply kept'. eapply take_or_fail_text in H; [exact H| |].
  - intros o er E. eapply delete_fail. exact E.
  - apply refresh_text.
Qed.

Theorem add_text p v q p' e : q <> [] -> P_Add p v q = PRet p' e -> mirrors' p (Add_ (p_json p) v q) p' e.
Proof.
  intros Hq. unfold P_Add. destruct v as [|c v]; [intro H; injection H as <- <-; apply refused'; [reflexivity|discriminate]|]. intro H.
  apply p_bind_text in H. destruct H as [[-> H]|(json & _ & H)]; [apply refused'; [reflexivity|exact H]|]. cbv zeta in H.
  destruct q as [|x q]; [contradiction|]. apply p_bind_text in H. destruct H as [[-> H]|(n & _ & H)]; [apply refused'; [reflexivity|exact H]|].
  destruct (2 <=? length json)%nat; [|injection H as <- <-; apply refused'; [reflexivity|discriminate]].
  destruct (_ && (last json 0 =? 93))%bool; [|injection H as <- <-; apply refused'; [reflexivity|discriminate]].
  assert (T : forall f l, take_or_fail (Par (upd_node (x :: q) f (p_core p)) (p_json p)) (Add_ (p_json p) (c :: v) (x :: q)) (refresh l) = PRet p' e ->
    mirrors' p (Add_ (p_json p) (c :: v) (x :: q)) p' e).
  { intros f l T. apply kept'. eapply take_or_fail_text in T; [exact T| |].
    - intros o er E. eapply add_fail. exact E.
    - apply refresh_text. }
  destruct (_ && _)%bool; [|eapply T; exact H]. apply p_pure_text in H. destruct H as (dn & _ & H). eapply T. exact H.
Qed.

Theorem addkv_text p k v q p' e : q <> [] -> P_AddKeyValue p k v q = PRet p' e -> mirrors' p (AddKeyValue (p_json p) k (Some v) q) p' e.
Proof.
  intros Hq. unfold P_AddKeyValue. destruct k as [|c k]; [intro H; injection H as <- <-; apply refused'; [reflexivity|discriminate]|]. intro H.
  apply p_bind_text in H. destruct H as [[-> H]|(json & _ & H)]; [apply refused'; [reflexivity|exact H]|]. cbv zeta in H.
  destruct q as [|x q]; [contradiction|]. apply p_bind_text in H. destruct H as [[-> H]|(n & _ & H)]; [apply refused'; [reflexivity|exact H]|].
  apply p_pure_text in H. destruct H as (up & _ & H).
  destruct (has_label _ _); [injection H as <- <-; apply refused'; [reflexivity|discriminate]|].
  destruct (2 <=? length json)%nat; [|injection H as <- <-; apply refused'; [reflexivity|discriminate]].
  destruct (_ && (last json 0 =? 125))%bool; [|injection H as <- <-; apply refused'; [reflexivity|discriminate]].
  assert (T : forall f l, take_or_fail (Par (upd_node (x :: q) f (p_core p)) (p_json p)) (AddKeyValue (p_json p) (c :: k) (Some v) (x :: q)) (refresh l) = PRet p' e ->
    mirrors' p (AddKeyValue (p_json p) (c :: k) (Some v) (x :: q)) p' e).
  { intros f l T. apply kept'. eapply take_or_fail_text in T; [exact T| |].
    - intros o er E. eapply addkv_fail. exact E.
    - apply refresh_text. }
  destruct (2 <=? length (c :: k))%nat; [|eapply T; exact H]. apply p_pure_text in H. destruct H as (c0 & _ & H).
  destruct (is_open c0); [|eapply T; exact H]. apply p_pure_text in H. destruct H as (dn & _ & H). eapply T. exact H.
Qed.

Theorem insert_text p z v q p' e : P_Insert p z v q = PRet p' e -> mirrors' p (Insert (p_json p) z v q) p' e.
Proof.
  unfold P_Insert. destruct v as [|c v]; [intro H; injection H as <- <-; apply refused'; [reflexivity|discriminate]|]. intro H.
  apply p_bind_text in H. destruct H as [[-> H]|(json & _ & H)]; [apply refused'; [reflexivity|exact H]|]. cbv zeta in H.
  assert (T : forall t k, take_or_fail (Par t (p_json p)) (Insert (p_json p) z (c :: v) q) k = PRet p' e ->
    (forall p1 p2 e2, k p1 = PRet p2 e2 -> p_json p2 = p_json p1) -> mirrors' p (Insert (p_json p) z (c :: v) q) p' e).
  { intros t k T Hk. apply kept'. eapply take_or_fail_text in T; [exact T| |exact Hk]. intros o er E. eapply insert_fail. exact E. }
  destruct q as [|x q].
  - destruct (2 <=? length json)%nat; [|injection H as <- <-; apply refused'; [reflexivity|discriminate]].
    destruct (_ && (last json 0 =? 93))%bool; [|injection H as <- <-; apply refused'; [reflexivity|discriminate]].
    destruct ((2 <=? length (c :: v))%nat && opens (c :: v))%bool.
    + apply p_pure_text in H. destruct H as (dn & _ & H). apply p_bind_text in H. destruct H as [[-> H]|(ns & _ & H)]; [apply refused'; [reflexivity|exact H]|].
      eapply T; [exact H|]. intros p1 p2 e2 H2. apply p_bind_text in H2. destruct H2 as [[-> _]|(ns2 & _ & H2)]; [reflexivity|]. injection H2 as <- _. reflexivity.
    + apply p_bind_text in H. destruct H as [[-> H]|(ns & _ & H)]; [apply refused'; [reflexivity|exact H]|].
      eapply T; [exact H|]. intros p1 p2 e2 H2. apply p_bind_text in H2. destruct H2 as [[-> _]|(ns2 & _ & H2)]; [reflexivity|]. injection H2 as <- _. reflexivity.
  - apply p_bind_text in H. destruct H as [[-> H]|(n & _ & H)]; [apply refused'; [reflexivity|exact H]|].
    destruct (2 <=? length json)%nat; [|injection H as <- <-; apply refused'; [reflexivity|discriminate]].
    destruct (_ && (last json 0 =? 93))%bool; [|injection H as <- <-; apply refused'; [reflexivity|discriminate]].
    destruct ((2 <=? length (c :: v))%nat && opens (c :: v))%bool.
    + apply p_pure_text in H. destruct H as (dn & _ & H). apply p_bind_text in H. destruct H as [[-> H]|(ns & _ & H)]; [apply refused'; [reflexivity|exact H]|].
      eapply T; [exact H|]. apply refresh_text.
    + apply p_bind_text in H. destruct H as [[-> H]|(ns & _ & H)]; [apply refused'; [reflexivity|exact H]|].
      eapply T; [exact H|]. apply refresh_text.
Qed.

(** ** At the root *)
Lemma ends (json : bytes) o c : (2 <=? length json)%nat = true -> (hd 0 json =? o) && (last json 0 =? c) = true ->
  exists m, json = o :: m ++ [c].
Proof.
  intros Hl H. apply andb_true_iff in H. destruct H as [Ho Hc]. apply N.eqb_eq in Ho, Hc. apply Nat.leb_le in Hl.
  destruct json as [|a json]; [cbn in Hl; lia|]. cbn in Ho. subst a. destruct json as [|a m _] using rev_ind; [cbn in Hl; lia|].
  rewrite app_comm_cons, last_last in Hc. subst a. eauto.
Qed.
Lemma put_root p (nested : bool) new t o m c p' e : p_json p = o :: m ++ [c] ->
  put_before_end (Par t (p_json p)) ((if (if nested then negb (length (p_json p) =? 2)%nat else true) then [44] else []) ++ new) (fun p => PRet p None) = PRet p' e ->
  e = None /\ p_json p' = o :: m ++ (if nested && (length m =? 0)%nat then [] else [44]) ++ new ++ [c].
Proof.
  intros Ht H. rewrite Ht in H. unfold put_before_end in H. cbn [p_json] in H.
  assert (Hlen : pred (length (o :: m ++ [c])) = length (o :: m)) by (cbn [length]; rewrite app_length; cbn [length]; lia).
  rewrite Hlen in H. rewrite (replace_app_eq _ (o :: m) [] [c]) in H; [|reflexivity|reflexivity|cbn [length]; lia].
  cbn [p_pure] in H. injection H as <- <-. split; [reflexivity|]. cbn [p_json].
  assert (E : (length (m ++ [c]) =? 1)%nat = (length m =? 0)%nat).
  { rewrite app_length. destruct m; cbn [length]; [reflexivity|]. apply Nat.eqb_neq. lia. }
  rewrite E. destruct nested; cbn [andb]; [|reflexivity]. destruct (length m =? 0)%nat; reflexivity.
Qed.

Theorem add_root_text p v p' e : P_Add p v [] = PRet p' e ->
  (p' = p /\ e <> None) \/
  e = None /\ exists m, p_json p = 91 :: m ++ [93] /\
    p_json p' = 91 :: m ++ (if two_open v && (length m =? 0)%nat then [] else [44]) ++ v ++ [93].
Proof.
  unfold P_Add. destruct v as [|c v]; [intro H; injection H as <- <-; left; split; [reflexivity|discriminate]|]. intro H.
  cbn [P_Get p_bind] in H. cbv zeta in H.
  destruct (2 <=? length (p_json p))%nat eqn:El; [|injection H as <- <-; left; split; [reflexivity|discriminate]].
  destruct (_ && (last (p_json p) 0 =? 93))%bool eqn:Eb; [|injection H as <- <-; left; split; [reflexivity|discriminate]].
  destruct (ends _ _ _ El Eb) as (m & Hm). right. unfold two_open. destruct ((2 <=? length (c :: v))%nat && opens (c :: v))%bool.
  - apply p_pure_text in H. destruct H as (dn & _ & H). apply (put_root p true _ _ _ _ _ _ _ Hm) in H. destruct H as [-> H]. split; [reflexivity|eauto].
  - apply (put_root p false _ _ _ _ _ _ _ Hm) in H. destruct H as [-> H]. split; [reflexivity|eauto].
Qed.

Theorem addkv_root_text p k v p' e : P_AddKeyValue p k v [] = PRet p' e ->
  (p' = p /\ e <> None) \/
  e = None /\ exists m, p_json p = 123 :: m ++ [125] /\
    p_json p' = 123 :: m ++ (if kv_open k v && (length m =? 0)%nat then [] else [44]) ++ (34 :: k ++ [34; 58] ++ v) ++ [125].
Proof.
  unfold P_AddKeyValue. destruct k as [|c k]; [intro H; injection H as <- <-; left; split; [reflexivity|discriminate]|]. intro H.
  cbn [P_Get p_bind] in H. cbv zeta in H.
  destruct (has_label _ _); [injection H as <- <-; left; split; [reflexivity|discriminate]|].
  destruct (2 <=? length (p_json p))%nat eqn:El; [|injection H as <- <-; left; split; [reflexivity|discriminate]].
  destruct (_ && (last (p_json p) 0 =? 125))%bool eqn:Eb; [|injection H as <- <-; left; split; [reflexivity|discriminate]].
  destruct (ends _ _ _ El Eb) as (m & Hm). right. unfold kv_open.
  assert (Ep : pair_text (c :: k) v = 34 :: (c :: k) ++ [34; 58] ++ v) by (unfold pair_text; cbn [app]; rewrite <- ?app_assoc; reflexivity).
  rewrite Ep in H. destruct (2 <=? length (c :: k))%nat; cbn [andb].
  - apply p_pure_text in H. destruct H as (c0 & Hc & H). assert (Eo : opens v = is_open c0) by (destruct v; [discriminate|injection Hc as ->; reflexivity]).
    rewrite Eo. destruct (is_open c0).
    + apply p_pure_text in H. destruct H as (dn & _ & H). apply (put_root p true _ _ _ _ _ _ _ Hm) in H. destruct H as [-> H]. split; [reflexivity|eauto].
    + apply (put_root p false _ _ _ _ _ _ _ Hm) in H. destruct H as [-> H]. split; [reflexivity|eauto].
  - apply (put_root p false _ _ _ _ _ _ _ Hm) in H. destruct H as [-> H]. split; [reflexivity|eauto].
Qed.

Lemma root_span_ends o m c exp : is_ws o = false -> is_ws c = false ->
  root_span (o :: m ++ [c]) o c exp = Ok (0%nat, length (o :: m ++ [c])).
Proof. intros Ho Hc. pose proof (root_span_spec [] o m c [] exp eq_refl eq_refl Ho Hc) as H. cbn [app] in H. rewrite app_nil_r in H. exact H. Qed.

(** What the package's functions make of such a text. *)
Lemma two_ends (o c : N) m : (length (o :: m ++ [c]) <? 2)%nat = false.
Proof. apply Nat.ltb_ge. cbn [length]. rewrite app_length. cbn [length]. lia. Qed.
Lemma add_root m v : Add_ (91 :: m ++ [93]) v [] = Done (91 :: m ++ (if forallb is_ws m then [] else [44]) ++ v ++ [93]).
Proof.
  unfold Add_. rewrite two_ends.
  cbn [target_span]. rewrite root_span_ends by reflexivity. cbn [ubind].
  rewrite (braces_at_spec _ [] 91 m 93 [] _ _) by (rewrite ?app_nil_r; reflexivity). cbn [pbind].
  rewrite (blank_between_spec _ [] 91 m 93 [] _ _) by (rewrite ?app_nil_r; reflexivity).
  destruct (forallb is_ws m); rewrite (done_insert _ (91 :: m) [93]); try reflexivity; try (cbn [length]; rewrite app_length; cbn [length]; lia).
  all: cbn [app]; rewrite <- ?app_assoc; reflexivity.
Qed.
Lemma addkv_root m k v out : AddKeyValue (123 :: m ++ [125]) k (Some v) [] = Done out ->
  out = 123 :: m ++ (if forallb is_ws m then [] else [44]) ++ (34 :: k ++ [34; 58] ++ v) ++ [125].
Proof.
  unfold AddKeyValue. rewrite two_ends.
  cbn [target_span]. rewrite root_span_ends by reflexivity. cbn [ubind].
  rewrite (braces_at_spec _ [] 123 m 125 [] _ _) by (rewrite ?app_nil_r; reflexivity). cbn [pbind].
  rewrite (blank_between_spec _ [] 123 m 125 [] _ _) by (rewrite ?app_nil_r; reflexivity).
  destruct (forallb is_ws m).
  - rewrite (done_insert _ (123 :: m) [125]); [|reflexivity|cbn [length]; rewrite app_length; cbn [length]; lia].
    intro H. injection H as <-. cbn [app]. rewrite <- ?app_assoc. cbn [app]. rewrite <- ?app_assoc. reflexivity.
  - cbn [app]. destruct (core _ _ _); [discriminate| |discriminate]. destruct (err_equal _ _); [|discriminate].
    match goal with |- done_replace _ ?n _ _ = _ -> _ => rewrite (done_insert _ (123 :: m) [125] n) end; [|reflexivity|cbn [length]; rewrite app_length; cbn [length]; lia].
    intro H. injection H as <-. cbn [app]. rewrite <- ?app_assoc. cbn [app]. rewrite <- ?app_assoc. reflexivity.
Qed.

(** ** Any calls: the functions' texts for some of them *)

Theorem call_text o p p' e : at_root o = false -> p_call o p = PRet p' e ->
  ((p_json p' = p_json p /\ e <> None) \/ Some (p_json p') = kept (p_json p) (call o (p_json p))) /\
  (silent o = false -> e = None -> call o (p_json p) = Done (p_json p')).
Proof.
  intros Hr H. destruct o as [q v|q x|q v|q k v|q z v|q x k|q k v]; cbn [p_call call silent] in *.
  - split; [exact (set_text _ _ _ _ _ H)|discriminate].
  - destruct (delete_text _ _ _ _ H) as [H1 H2]. split; [exact H1|intros _; exact H2].
  - destruct (add_text p (render v) q p' e) as [H1 H2]; [destruct q; discriminate|exact H|]. split; [exact H1|intros _; exact H2].
  - destruct (addkv_text p k (render v) q p' e) as [H1 H2]; [destruct q; discriminate|exact H|]. split; [exact H1|intros _; exact H2].
  - destruct (insert_text _ _ _ _ _ _ H) as [H1 H2]. split; [exact H1|intros _; exact H2].
  - split; [exact (setkey_text _ _ _ _ _ H)|discriminate].
  - injection H as <- <-. split; [left; split; [reflexivity|discriminate]|intros _ He; discriminate].
Qed.

Theorem run_text ops : forall p p', forallb (fun o => negb (at_root o)) ops = true -> p_run_on ops p = Some p' ->
  exists ops', some_of ops' ops /\ run ops' (p_json p) = Some (p_json p').
Proof.
  induction ops as [|o ops IH]; intros p p' Hr H; cbn [p_run_on forallb] in *.
  - injection H as <-. exists []. split; [constructor|reflexivity].
  - apply andb_true_iff in Hr. destruct Hr as [Hr Hrs]. apply negb_true_iff in Hr.
    destruct (p_call o p) as [p1 e|] eqn:E; [|discriminate]. destruct (IH _ _ Hrs H) as (ops' & Hs & Ho).
    destruct (call_text _ _ _ _ Hr E) as [[[H1 _]|H1] _].
    + exists ops'. split; [constructor; exact Hs|congruence].
    + exists (o :: ops'). split; [constructor; exact Hs|]. cbn [run]. destruct (call o (p_json p)); cbn [kept] in H1; congruence.
Qed.

(** ** On documents *)

Lemma bare_doc d o m c : wf_doc d = true -> text d = o :: m ++ [c] -> is_ws o = false -> is_ws c = false -> render (d_val d) = o :: m ++ [c].
Proof.
  intros Hw Ht Ho Hc. unfold text in Ht. unfold wf_doc, ws_ok in Hw. nbool. destruct (d_pre d) as [|a pre].
  - destruct (d_post d) as [|z post _] using rev_ind; [rewrite app_nil_r in Ht; exact Ht|].
    rewrite forallb_app in *. cbn [forallb] in *. nbool. cbn [app] in Ht. rewrite app_assoc in Ht. change (o :: m ++ [c]) with ((o :: m) ++ [c]) in Ht.
    apply app_inj_tail in Ht. destruct Ht as [_ ->]. congruence.
  - cbn [app] in Ht. injection Ht as -> _. cbn [forallb] in *. nbool. congruence.
Qed.
Lemma full_inside v o m c : wf v = true -> hollow v = false -> render v = o :: m ++ [c] -> forallb is_ws m = false.
Proof.
  intros Hw Hh Hr. destruct v as [s|s|w [|e els]|w [|e ms]]; try discriminate.
  - rewrite render_arr in Hr. remember (join (map elem_text (e :: els))) as J eqn:HJ. injection Hr as _ Hr. rewrite app_assoc in Hr. apply app_inj_tail in Hr. destruct Hr as [<- _].
    rewrite wf_arr in Hw. cbn [forallb] in Hw. nbool. match goal with H : elem_ok e = true |- _ => unfold elem_ok in H end. nbool.
    match goal with H : wf (e_val e) = true |- _ => destruct (wf_nonblank _ H) as (c0 & r & Hcr & Hc) end.
    rewrite HJ, map_cons, join_cons. unfold elem_text at 1. rewrite Hcr.
    replace (w ++ (e_pre e ++ (c0 :: r) ++ e_post e) ++ jpost (map elem_text els)) with ((w ++ e_pre e) ++ c0 :: (r ++ e_post e ++ jpost (map elem_text els))) by same_text.
    apply not_blank. exact Hc.
  - rewrite render_obj in Hr. remember (join (map mem_text (e :: ms))) as J eqn:HJ. injection Hr as _ Hr. rewrite app_assoc in Hr. apply app_inj_tail in Hr. destruct Hr as [<- _].
    rewrite wf_obj in Hw. cbn [forallb] in Hw. nbool. rewrite HJ, map_cons, join_cons. apply mem_nonblank. assumption.
Qed.
Lemma open_container v : wf v = true -> leaf v = false -> two_open (render v) = true /\ opens (render v) = true.
Proof.
  destruct v as [s|s|w els|w ms]; try discriminate; intros _ _; [rewrite render_arr|rewrite render_obj]; (split; [|reflexivity]);
    unfold two_open; cbn [opens is_open N.eqb Pos.eqb orb]; rewrite andb_true_r; apply Nat.leb_le; cbn [length]; rewrite !app_length; cbn [length]; lia.
Qed.

(** One call on a document: the text becomes the function's. *)
Theorem call_document d o p p' t : wf_doc d = true -> legal d o -> root_open d o -> p_json p = text d ->
  call o (text d) = Done t -> p_call o p = PRet p' None -> p_json p' = t.
Proof.
  intros Hw Hl Hg Hj Hc H. destruct (at_root o) eqn:Er.
  - destruct o as [q v|q x|[|x q] v|[|x q] k v|q z v|q x k|q k v]; try discriminate; cbn [p_call call root_open legal] in *.
    + destruct (add_root_text _ _ _ _ H) as [[_ He]|[_ (m & Hm & Hm')]]; [congruence|].
      rewrite Hj in Hm. pose proof (bare_doc _ _ _ _ Hw Hm eq_refl eq_refl) as Hr.
      rewrite Hm, add_root in Hc. injection Hc as <-. rewrite Hm'. do 2 f_equal. f_equal.
      destruct Hg as [Hg|[Hg Hv]].
      * rewrite (full_inside _ _ _ _ (wf_doc_val _ Hw) Hg Hr). destruct m; [|rewrite andb_false_r; reflexivity].
        exfalso. pose proof (full_inside _ _ _ _ (wf_doc_val _ Hw) Hg Hr) as E. discriminate E.
      * rewrite Hg in Hr. cbn in Hr. destruct m as [|a m]; [|destruct m; discriminate]. destruct (open_container v) as [-> _]; auto.
    + destruct (addkv_root_text _ _ _ _ _ H) as [[_ He]|[_ (m & Hm & Hm')]]; [congruence|].
      rewrite Hj in Hm. pose proof (bare_doc _ _ _ _ Hw Hm eq_refl eq_refl) as Hr.
      rewrite Hm in Hc. apply addkv_root in Hc. rewrite Hc, Hm'. do 2 f_equal. f_equal.
      destruct Hg as [Hg|(Hg & Hv & Hk)].
      * rewrite (full_inside _ _ _ _ (wf_doc_val _ Hw) Hg Hr). destruct m; [|rewrite andb_false_r; reflexivity].
        exfalso. pose proof (full_inside _ _ _ _ (wf_doc_val _ Hw) Hg Hr) as E. discriminate E.
      * rewrite Hg in Hr. cbn in Hr. destruct m as [|a m]; [|destruct m; discriminate]. destruct (open_container v) as [_ E]; [tauto|exact Hv|].
        unfold kv_open. rewrite E. apply Nat.leb_le in Hk. rewrite Hk. reflexivity.
  - rewrite <- Hj in Hc. destruct (call_text _ _ _ _ Er H) as [[[_ He]|He] _]; [congruence|]. rewrite Hc in He. cbn [kept] in He. congruence.
Qed.

Theorem text_history d ops c' : t_lawful d ops c' -> wf_doc d = true -> forall p p', p_json p = text d -> p_run ops p = Some p' ->
  exists d', p_json p' = text d' /\ wf_doc d' = true /\ content (d_val d') = c' /\ run ops (text d) = Some (text d').
Proof.
  induction 1 as [d|d o ops c1 c2 Hl Hg Hm _ IH]; intros Hw p p' Hj Hr; cbn [p_run] in Hr.
  - injection Hr as <-. exists d. auto.
  - destruct (call_ok d o c1 Hw Hl Hm) as (d1 & Hc & (Hw1 & _ & _ & Hc1)). destruct (p_call o p) as [p1 [e|]|] eqn:E; try discriminate.
    pose proof (call_document d o p p1 _ Hw Hl Hg Hj Hc E) as Hj1.
    destruct (IH d1 Hw1 Hc Hc1 Hw1 p1 p' Hj1 Hr) as (d' & H1 & H2 & H3 & H4). exists d'. split; [exact H1|]. split; [exact H2|]. split; [exact H3|].
    cbn [run]. rewrite Hc. exact H4.
Qed.

(** When the root methods write what the functions write. *)
Theorem add_root_exact p v p' : P_Add p v [] = PRet p' None ->
  exists m, p_json p = 91 :: m ++ [93] /\
    (Add_ (p_json p) v [] = Done (p_json p') <-> forallb is_ws m = false \/ (m = [] /\ two_open v = true)).
Proof.
  intro H. destruct (add_root_text _ _ _ _ H) as [[_ He]|[_ (m & Hm & Hm')]]; [congruence|]. exists m. split; [exact Hm|].
  rewrite Hm, Hm', add_root. destruct m as [|a m].
  - cbn [forallb length Nat.eqb]. rewrite andb_true_r. destruct (two_open v); (split; [intro E|intros [E|[_ E]]]; try discriminate; auto).
    injection E as E. apply (f_equal (@length N)) in E. cbn [app length] in E. rewrite app_length in E. cbn in E. lia.
  - cbn [length Nat.eqb]. rewrite andb_false_r. destruct (forallb is_ws (a :: m)); (split; [intro E|intros [E|[E _]]]; try discriminate; auto).
    injection E as E. apply app_inv_head in E. apply (f_equal (@length N)) in E. cbn [app length] in E. rewrite app_length in E. cbn in E. lia.
Qed.
Theorem addkv_root_exact p k v p' : P_AddKeyValue p k v [] = PRet p' None ->
  exists m, p_json p = 123 :: m ++ [125] /\
    (AddKeyValue (p_json p) k (Some v) [] = Done (p_json p') <->
     (forallb is_ws m = false /\ Get (p_json p) [k] = Err (EKeyNotFound k)) \/ (m = [] /\ kv_open k v = true)).
Proof.
  intro H. destruct (addkv_root_text _ _ _ _ _ H) as [[_ He]|[_ (m & Hm & Hm')]]; [congruence|]. exists m. split; [exact Hm|].
  rewrite Hm, Hm'. unfold AddKeyValue. rewrite two_ends.
  cbn [target_span]. rewrite root_span_ends by reflexivity. cbn [ubind].
  rewrite (braces_at_spec _ [] 123 m 125 [] _ _) by (rewrite ?app_nil_r; reflexivity). cbn [pbind].
  rewrite (blank_between_spec _ [] 123 m 125 [] _ _) by (rewrite ?app_nil_r; reflexivity).
  destruct (forallb is_ws m) eqn:Ew.
  - rewrite (done_insert _ (123 :: m) [125]); [|reflexivity|cbn [length]; rewrite app_length; cbn [length]; lia].
    destruct (kv_open k v && (length m =? 0)%nat)%bool eqn:Eo.
    + apply andb_true_iff in Eo. destruct Eo as [Eo E0]. split; [intros _; right; split; [destruct m; [reflexivity|discriminate E0]|exact Eo]|].
      intros _. f_equal. cbn [app]. rewrite <- ?app_assoc. cbn [app]. rewrite <- ?app_assoc. reflexivity.
    + split.
      * intro E. exfalso. injection E as E. rewrite <- ?app_assoc in E. cbn [app] in E. rewrite <- ?app_assoc in E. cbn [app] in E. rewrite <- ?app_assoc in E. cbn [app] in E.
        apply app_inv_head in E. apply (f_equal (@length N)) in E. cbn [length] in E. rewrite ?app_length in E. cbn [length] in E. rewrite ?app_length in E. cbn [length] in E. lia.
      * intros [[E _]|[-> E]]; [discriminate E|]. rewrite E in Eo. discriminate Eo.
  - assert (Ec : (if kv_open k v && (length m =? 0)%nat then [] else [44]) = [44]) by (destruct m; [discriminate Ew|rewrite andb_false_r; reflexivity]).
    rewrite Ec. cbn [app]. destruct (core (123 :: m ++ [125]) false [k]) as [r|er|] eqn:Ecore.
    + split; [discriminate|]. intros [[_ E]|[-> _]]; [|cbn in Ew; discriminate Ew]. apply LookupFails.get_err in E. destruct E as [_ E]. congruence.
    + destruct (LookupFails.core_err (123 :: m ++ [125]) false [k] er ltac:(discriminate) Ecore) as [Hl _]. rewrite (LookupFails.found_code _ _ Hl).
      assert (Eg : Get (123 :: m ++ [125]) [k] = Err er) by (unfold Get; rewrite Ecore; reflexivity). rewrite Eg.
      destruct (SpecFails.not_found er) eqn:En.
      * match goal with |- done_replace _ ?n _ _ = _ <-> _ => rewrite (done_insert _ (123 :: m) [125] n) end; [|reflexivity|cbn [length]; rewrite app_length; cbn [length]; lia].
        split; intros _; [|cbn [app]; rewrite <- ?app_assoc; cbn [app]; rewrite <- ?app_assoc; reflexivity].
        left. split; [reflexivity|]. destruct er; try discriminate En. cbn in Hl. destruct Hl as [->|[]]. reflexivity.
      * split; [discriminate|]. intros [[_ E]|[-> _]]; [|cbn in Ew; discriminate Ew]. injection E as ->. discriminate En.
    + split; [discriminate|]. intros [[_ E]|[-> _]]; [|cbn in Ew; discriminate Ew]. apply LookupFails.get_err in E. destruct E as [_ E]. congruence.
Qed.
