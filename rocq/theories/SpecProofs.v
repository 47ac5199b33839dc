(** Relations between the text-level trees and the abstract documents. *)
From Verif Require Import GoStd Json Skip Focus.
From Verif Require Export Spec.

Local Open Scope N_scope.

Lemma content_arr w els : content (JArr w els) = DArr (map (fun e => content (e_val e)) els).
Proof. reflexivity. Qed.
Lemma content_obj w ms : content (JObj w ms) = DObj (map (fun m => (m_key m, content (m_val m))) ms).
Proof. reflexivity. Qed.

Definition mpair (m : mem jv) : bytes * jd := (m_key m, content (m_val m)).

Lemma nth_z_map {A B} (f : A -> B) l z : nth_z (map f l) z = option_map f (nth_z l z).
Proof.
  unfold nth_z. rewrite map_length. destruct ((0 <=? z) && (z <? Z.of_nat (length l)))%Z; [|reflexivity].
  apply nth_error_map.
Qed.

Lemma assoc_mpair x ms : assoc x (map mpair ms) = option_map (fun m => content (m_val m)) (find_mem x ms).
Proof.
  induction ms as [|m ms IH]; cbn; [reflexivity|].
  unfold find_mem in *. cbn [find]. destruct (bytes_eqb (m_key m) x); [reflexivity|exact IH].
Qed.

Lemma child_content t x : d_child (content t) x = option_map content (child t x).
Proof.
  destruct t as [s|s|w els|w ms]; try reflexivity.
  - cbn [content d_child child]. destruct (atoi x); [|reflexivity]. rewrite nth_z_map.
    destruct (nth_z els z); reflexivity.
  - cbn [content d_child child]. fold mpair. rewrite assoc_mpair.
    destruct (find_mem x ms); reflexivity.
Qed.

Lemma lookup_content t p : d_lookup (content t) p = option_map content (lookup t p).
Proof.
  revert t. induction p as [|x p IH]; intro t; [reflexivity|]. cbn [d_lookup lookup].
  rewrite child_content. destruct (child t x) as [c|]; [apply IH|reflexivity].
Qed.

Lemma set_nth_map {A B} (f : A -> B) l n g h : (forall a, f (g a) = h (f a)) ->
  map f (set_nth l n g) = set_nth (map f l) n h.
Proof.
  intro H. revert n. induction l as [|a l IH]; intros [|n]; cbn; try reflexivity.
  - rewrite H. reflexivity.
  - rewrite IH. reflexivity.
Qed.

Lemma assoc_set_mpair x c ms :
  assoc_set x (content c) (map mpair ms) = map mpair (set_mem x (fun m => with_val m c) ms).
Proof.
  induction ms as [|m ms IH]; cbn; [reflexivity|].
  destruct (bytes_eqb (m_key m) x); cbn; [reflexivity|]. rewrite IH. reflexivity.
Qed.

Lemma set_child_content t x c : content (set_child t x c) = d_set_child (content t) x (content c).
Proof.
  destruct t as [s|s|w els|w ms]; try reflexivity.
  - cbn [content d_set_child set_child]. destruct (atoi x); [|reflexivity].
    cbn [content]. f_equal. apply set_nth_map. reflexivity.
  - cbn [content d_set_child set_child]. fold mpair. rewrite assoc_set_mpair. reflexivity.
Qed.

(** Lifting an operation on a subtree to the whole document. *)
Lemma modify_content t p f g :
  (forall v, lookup t p = Some v -> g (content v) = option_map content (f v)) ->
  d_modify (content t) p g = option_map content (modify t p f).
Proof.
  revert t. induction p as [|x p IH]; intros t H; cbn [d_modify modify].
  - apply H. reflexivity.
  - rewrite child_content. destruct (child t x) as [c|] eqn:E; cbn [option_map]; [|reflexivity].
    rewrite IH.
    + destruct (modify c p f); cbn [option_map]; [|reflexivity]. rewrite set_child_content. reflexivity.
    + intros v Hv. apply H. cbn [lookup]. rewrite E. exact Hv.
Qed.

Lemma d_modify_inv t p g c' : d_modify (content t) p g = Some c' ->
  exists v cv, lookup t p = Some v /\ g (content v) = Some cv.
Proof.
  revert t c'. induction p as [|x p IH]; intros t c' H; cbn [d_modify] in H.
  - exists t, c'. auto.
  - rewrite child_content in H. destruct (child t x) as [c|] eqn:E; cbn [option_map] in H; [|discriminate].
    destruct (d_modify (content c) p g) as [c2|] eqn:E2; [|discriminate].
    destruct (IH _ _ E2) as (v & cv & Hv & Hg). exists v, cv. split; [|exact Hg].
    cbn [lookup]. rewrite E. exact Hv.
Qed.

(** Changing the value [v] at focus into [v'] with known content. *)
Lemma modify_at t p pre v post v' g :
  focus t p pre v post -> wf t = true -> wf v' = true -> g (content v) = Some (content v') ->
  exists t', focus t' p pre v' post /\ wf t' = true /\ d_modify (content t) p g = Some (content t').
Proof.
  intros Hf Hw Hw' Hg.
  destruct (focus_modify t p pre v post (fun _ => Some v') v' Hf eq_refl) as (t' & Hm & Hf').
  exists t'. split; [exact Hf'|]. split.
  - eapply modify_wf with (f := fun _ => Some v'); [eapply focus_lookup; exact Hf|reflexivity|exact Hw|exact Hw'|exact Hm].
  - rewrite modify_content with (f := fun _ => Some v').
    + rewrite Hm. reflexivity.
    + intros u Hu. rewrite (focus_lookup _ _ _ _ _ Hf) in Hu. injection Hu as <-. exact Hg.
Qed.

(** ** Laws of abstract documents *)

Lemma nth_z_set_nth {A} (l : list A) n c z : n <> Z.to_nat z \/ (z < 0)%Z ->
  nth_z (set_nth l n (fun _ => c)) z = nth_z l z.
Proof.
  intro H. unfold nth_z.
  assert (Hl : forall m, length (set_nth l m (fun _ => c)) = length l).
  { clear. induction l as [|a l IH]; intros [|m]; cbn; try reflexivity. rewrite IH. reflexivity. }
  rewrite Hl. destruct ((0 <=? z) && (z <? Z.of_nat (length l)))%Z eqn:E; [|reflexivity].
  destruct H as [H|H]; [|apply andb_true_iff in E; lia].
  clear Hl E. revert n H. generalize (Z.to_nat z) as m. induction l as [|a l IH]; intros m n H.
  - destruct n, m; reflexivity.
  - destruct n, m; cbn; try reflexivity; [congruence|]. apply IH. congruence.
Qed.

Lemma nth_z_set_nth_same {A} (l : list A) z c a : nth_z l z = Some a ->
  nth_z (set_nth l (Z.to_nat z) (fun _ => c)) z = Some c.
Proof.
  intro H. apply nth_z_split in H. destruct H as (l1 & l2 & -> & ->).
  rewrite Nat2Z.id, set_nth_app. apply nth_z_app.
Qed.

Lemma assoc_set_same {V} x (c : V) ms a : assoc x ms = Some a -> assoc x (assoc_set x c ms) = Some c.
Proof.
  induction ms as [|[k v] ms IH]; cbn; [discriminate|].
  destruct (bytes_eqb k x) eqn:E; cbn; rewrite E; auto.
Qed.

Lemma assoc_set_other {V} x y (c : V) ms : x <> y -> assoc y (assoc_set x c ms) = assoc y ms.
Proof.
  intro H. induction ms as [|[k v] ms IH]; cbn; [reflexivity|].
  destruct (bytes_eqb_spec k x); cbn.
  - subst k. apply bytes_eqb_neq in H. rewrite H. reflexivity.
  - rewrite IH. reflexivity.
Qed.

Lemma d_child_set_same t x c a : d_child t x = Some a -> d_child (d_set_child t x c) x = Some c.
Proof.
  destruct t as [s|s|ds|ms]; cbn [d_child d_set_child]; try discriminate; intro H.
  - destruct (atoi x) as [z|] eqn:E; [|discriminate]. cbn [d_child]. rewrite E.
    eapply nth_z_set_nth_same. exact H.
  - cbn [d_child]. eapply assoc_set_same. exact H.
Qed.

Lemma d_child_same_step t x y : same_step t x y -> d_child t x = d_child t y.
Proof. destruct t; cbn; intro H; rewrite ?H; reflexivity. Qed.

Lemma same_step_dec t x y : {same_step t x y} + {~ same_step t x y}.
Proof.
  destruct t; cbn; try (destruct (bytes_eqb_spec x y); [left|right]; assumption).
  destruct (atoi x) as [a|], (atoi y) as [c|]; try (right; discriminate); [|left; reflexivity].
  destruct (Z.eq_dec a c); [left; congruence|right; congruence].
Qed.

Lemma d_child_set_other t x y c a : d_child t x = Some a -> ~ same_step t x y ->
  d_child (d_set_child t x c) y = d_child t y.
Proof.
  destruct t as [s|s|ds|ms]; cbn [d_child d_set_child same_step]; intros H Hn; try reflexivity.
  - destruct (atoi x) as [z|] eqn:E; [|discriminate]. cbn [d_child].
    destruct (atoi y) as [u|]; [|reflexivity]. apply nth_z_set_nth.
    destruct (Z.ltb_spec u 0); [right; assumption|left].
    assert (0 <= z)%Z. { unfold nth_z in H. destruct (0 <=? z)%Z eqn:E2; [lia|discriminate]. }
    intro Heq. apply Hn. f_equal. lia.
  - cbn [d_child]. apply assoc_set_other. exact Hn.
Qed.

Theorem d_lookup_modify_same t p f t' v v' :
  d_modify t p f = Some t' -> d_lookup t p = Some v -> f v = Some v' -> d_lookup t' p = Some v'.
Proof.
  revert t t'. induction p as [|x p IH]; intros t t' Hm Hl Hf; cbn [d_modify d_lookup] in *.
  - congruence.
  - destruct (d_child t x) as [c|] eqn:E; [|discriminate].
    destruct (d_modify c p f) as [c'|] eqn:E2; [|discriminate]. injection Hm as <-.
    rewrite (d_child_set_same _ _ _ _ E). eapply IH; eassumption.
Qed.

Theorem d_lookup_modify_apart t p q f t' :
  d_modify t p f = Some t' -> apart t p q -> d_lookup t' q = d_lookup t q.
Proof.
  revert q t t'. induction p as [|x p IH]; intros q t t' Hm Ha; [destruct q; contradiction Ha|].
  destruct q as [|y q]; [contradiction Ha|]. cbn [d_modify d_lookup apart] in *.
  destruct (d_child t x) as [c|] eqn:E; [|discriminate].
  destruct (d_modify c p f) as [c'|] eqn:E2; [|discriminate]. injection Hm as <-.
  destruct (same_step_dec t x y) as [Hs|Hs].
  - destruct (Ha Hs) as (c0 & Hc0 & Ha'). try rewrite E in Hc0. injection Hc0 as <-.
    assert (Hy : d_child t y = Some c) by (rewrite <- (d_child_same_step _ _ _ Hs); exact E).
    assert (Hy' : d_child (d_set_child t x c') y = Some c').
    { rewrite <- (d_child_same_step (d_set_child t x c') x y).
      - eapply d_child_set_same. exact E.
      - destruct t; try exact Hs. cbn [same_step d_set_child] in Hs |- *. destruct (atoi x) eqn:Ex; cbn [same_step]; congruence. }
    rewrite Hy, Hy'. eapply IH; eassumption.
  - rewrite (d_child_set_other _ _ _ _ _ E Hs). reflexivity.
Qed.

Lemma d_modify_ext_at t p f g u : d_lookup t p = Some u -> f u = g u -> d_modify t p f = d_modify t p g.
Proof.
  revert t. induction p as [|x p IH]; intros t Hl H; cbn [d_modify d_lookup] in *.
  - congruence.
  - destruct (d_child t x) as [c|]; [|reflexivity]. rewrite (IH c Hl H). reflexivity.
Qed.
