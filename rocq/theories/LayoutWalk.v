(** Documents of the same content: Walk, and the iterators with any callback. *)
From Coq Require Import String Lia.
From Verif Require Import GoStd Json Spec SpecProofs Focus Domains Core CoreProofs Errors Api ApiProofs SpecIter Iter IterProofs Layout LayoutRead SpecLayout IterObj IterMisc LayoutAbsent.
From Verif Require Import SpecWalk Walk WalkProofs.
From Verif Require SpecFormat FormatProofs SpecParser.

Local Open Scope N_scope.

(** ** Walk *)
Lemma as_found_strip v : as_found (strip v) = strip (as_found v).
Proof.
  induction v as [s|s|w els IH|w ms IH] using jv_ind'; try reflexivity.
  - cbn [SpecFormat.strip as_found]. f_equal. rewrite !map_map. apply map_ext_in. intros [a u c] He. rewrite Forall_forall in IH. cbn [e_val]. f_equal. exact (IH _ He).
  - cbn [SpecFormat.strip as_found]. f_equal.
    assert (E : map (fun m => match m with Mem a k c c' u e => Mem a k c c' (as_found u) e end) (map bare_mem ms) =
                map bare_mem (map (fun m => match m with Mem a k c c' u e => Mem a k c c' (as_found u) e end) ms)).
    { rewrite !map_map. apply map_ext_in. intros [a k c c' u e] He. rewrite Forall_forall in IH. cbn [m_key m_val]. f_equal. exact (IH _ He). }
    rewrite E. set (ms' := map _ ms). rewrite !map_map. apply map_ext. intros [a k c c' u e]. cbn [m_key m_val]. f_equal. rewrite find_strip.
    destruct (find_mem k ms') as [m0|]; reflexivity.
Qed.
Lemma objects_strip v : forall p, objects dec p (strip v) = map (fun o => (fst o, map bare_mem (snd o))) (objects dec p v).
Proof.
  induction v as [s|s|w els IH|w ms IH] using jv_ind'; intro p; try reflexivity.
  - cbn [SpecFormat.strip objects]. generalize O as i. induction IH as [|[a u c] l He Hl IHl]; intro i; [reflexivity|]. cbn [map e_val]. rewrite map_app. f_equal; [apply He|apply IHl].
  - cbn [SpecFormat.strip objects map fst snd]. f_equal. induction IH as [|[a k c c' u e] l He Hl IHl]; [reflexivity|]. cbn [map m_key m_val]. rewrite map_app. f_equal; [apply He|apply IHl].
Qed.
Section Walked.
  Context {St Er : Type}.
  Variables (shown shown' : list bytes -> jv -> bytes) (empty : Er) (cb : St -> bytes -> bytes -> list bytes -> St * (bool * option Er)).
  Hypothesis same : forall p v, p <> [] -> container v = false -> shown p v = shown' p v.
  Lemma walked_strip v : forall p s, p <> [] \/ container v = true -> walked dec shown empty cb p v s = walked dec shown' empty cb p (strip v) s.
  Proof.
    assert (N : forall p (x : bytes), p ++ [x] <> []) by (intros [|y p] x; discriminate).
    induction v as [t|t|w els IH|w ms IH] using jv_ind'; intros p s H.
    - cbn [SpecFormat.strip walked]. rewrite same; [reflexivity| |reflexivity]. destruct H as [H|H]; [exact H|discriminate].
    - cbn [SpecFormat.strip walked]. rewrite same; [reflexivity| |reflexivity]. destruct H as [H|H]; [exact H|discriminate].
    - destruct els as [|[a0 u0 c0] els0]; [reflexivity|]. inversion IH as [|x l He0 Hl0]; subst. cbn [SpecFormat.strip walked map e_val]. cbn [e_val] in He0.
      rewrite <- (He0 (p ++ [dec 0]) s (or_introl (N _ _))). destruct (walked dec shown empty cb (p ++ [dec 0]) u0 s) as [s' [e|]]; [reflexivity|].
      clear He0 IH H. revert s'. generalize (S O) as i. induction Hl0 as [|[a u c] l He Hl IHl]; intros i s'; [reflexivity|]. cbn [map e_val]. cbn [e_val] in He.
      rewrite <- (He (p ++ [dec i]) s' (or_introl (N _ _))). destruct (walked dec shown empty cb (p ++ [dec i]) u s') as [s'' [e|]]; [reflexivity|]. apply IHl.
    - clear H. cbn [SpecFormat.strip walked]. revert s. induction IH as [|[a k c c' u e] l He Hl IHl]; intro s; [reflexivity|]. cbn [map m_key m_val]. cbn [m_val] in He.
      rewrite <- (He (p ++ [k]) s (or_introl (N _ _))). destruct (walked dec shown empty cb (p ++ [k]) u s) as [s' [e0|]]; [destruct l; reflexivity|]. apply IHl.
  Qed.
End Walked.

Lemma seen_same d d' p : content (d_val d) = content (d_val d') -> seen_absent d p [] -> seen_absent d' p [].
Proof.
  intros Hc (w & ms & Hl & Hf & [Hs|(Hx & _)]); [|congruence]. destruct (object_same _ _ _ _ _ Hc Hl) as (w' & ms' & Hl' & E). exists w', ms'.
  split; [exact Hl'|]. split; [exact (find_same _ _ _ _ _ E Hf)|]. left. pose proof (same_out _ _ (stray_at_same _ _ p [] Hc)) as S. rewrite Hs in S.
  destruct (stray_at (d_val d') p []); [reflexivity|contradiction|contradiction].
Qed.
Theorem walk_same (St : Type) pf d d' (cb : St -> bytes -> bytes -> list bytes -> St * (bool * option err)) :
  wf_doc d = true -> wf_doc d' = true -> content (d_val d) = content (d_val d') -> container (d_val d) = true ->
  SpecParser.fits (text d) -> SpecParser.fits (text d') ->
  (forall p, In (p, []) (objects dec [] (as_found (d_val d))) -> seen_absent d p []) ->
  text d <> b "{}" /\ text d <> b "[]" -> text d' <> b "{}" /\ text d' <> b "[]" ->
  forall s, Walk pf (text d) cb s = Walk pf (text d') cb s.
Proof.
  intros Hw Hw' Hc Hk F F' Hs E E' s. rewrite (Walk_found pf d cb Hw F Hs E s).
  assert (Hst : strip (d_val d) = strip (d_val d')) by (apply FormatProofs.strip_of_content, Hc).
  rewrite (Walk_found pf d' cb Hw' F'); [|..|exact E'].
  - f_equal. assert (K : forall v, container (as_found v) = container v) by (intros []; reflexivity).
    assert (K' : container (d_val d') = true) by (destruct (d_val d), (d_val d'); try discriminate; reflexivity).
    assert (A : forall p v, p <> [] -> container v = false -> shown_leaf d p v = shown_leaf d' p v) by (intros [|x p] v Hp _; [congruence|reflexivity]).
    rewrite (walked_strip (shown_leaf d) (shown_leaf d') EEmptyArray cb A) by (right; rewrite K; exact Hk).
    rewrite (walked_strip (shown_leaf d') (shown_leaf d') EEmptyArray cb (fun p v _ _ => eq_refl) (as_found (d_val d'))) by (right; rewrite K; exact K').
    rewrite <- !as_found_strip, Hst. reflexivity.
  - intros p Hp. apply (seen_same d d' p Hc). apply Hs.
    assert (O : map (fun o => (fst o, map bare_mem (snd o))) (objects dec [] (as_found (d_val d))) = map (fun o => (fst o, map bare_mem (snd o))) (objects dec [] (as_found (d_val d')))).
    { rewrite <- !objects_strip, <- !as_found_strip, Hst. reflexivity. }
    apply (in_map (fun o => (fst o, map bare_mem (snd o)))) in Hp. rewrite <- O in Hp. apply in_map_iff in Hp. destruct Hp as ([q l] & Eq & Hq). cbn [fst snd map] in Eq.
    injection Eq as -> El. destruct l; [exact Hq|discriminate].
Qed.

(** ** The iterators *)
Lemma visit_alike {A St St' Er : Type} (rel : A -> A -> Prop) (R : St -> St' -> Prop) (f : St -> A -> St * (bool * option Er)) (f' : St' -> A -> St' * (bool * option Er)) :
  (forall s s' x x', R s s' -> rel x x' -> R (fst (f s x)) (fst (f' s' x')) /\ snd (f s x) = snd (f' s' x')) ->
  forall xs xs', Forall2 rel xs xs' -> forall s s', R s s' -> R (fst (visit f xs s)) (fst (visit f' xs' s')) /\ snd (visit f xs s) = snd (visit f' xs' s').
Proof.
  intro H. induction 1 as [|x x' xs xs' Hx _ IH]; intros s s' HR; [split; [exact HR|reflexivity]|]. cbn [visit]. destruct (H s s' x x' HR Hx) as [H1 H2].
  destruct (f s x) as [t [g e]], (f' s' x') as [t' [g' e']]. cbn [fst snd] in *. injection H2 as -> ->. destruct e'; [split; [exact H1|reflexivity]|].
  destruct g'; [apply IH, H1|split; [exact H1|reflexivity]].
Qed.
Lemma removelast_forall2 {A B} (R : A -> B -> Prop) xs ys : Forall2 R xs ys -> Forall2 R (removelast xs) (removelast ys).
Proof. induction 1 as [|x y xs ys H Hl IH]; [constructor|]. destruct Hl; [constructor|]. cbn [removelast]. constructor; assumption. Qed.
Lemma items_alike els els' : Forall (fun e => wf (e_val e) = true) els -> Forall (fun e => wf (e_val e) = true) els' -> map (fun e => content (e_val e)) els = map (fun e => content (e_val e)) els' -> Forall2 shown_alike (items els) (items els').
Proof.
  revert els'. induction els as [|e els IH]; intros [|e' els'] W W' H; try discriminate; [constructor|]. cbn [map] in H. injection H as H1 H2.
  inversion W; inversion W'; subst. constructor; [exists (e_val e), (e_val e'); auto|apply IH; assumption].
Qed.
Lemma pairs_alike ms ms' : Forall (fun m => wf (m_val m) = true) ms -> Forall (fun m => wf (m_val m) = true) ms' -> map (fun m : mem jv => (m_key m, content (m_val m))) ms = map (fun m => (m_key m, content (m_val m))) ms' ->
  Forall2 (fun x x' => fst x = fst x' /\ shown_alike (snd x) (snd x')) (pairs ms) (pairs ms').
Proof.
  revert ms'. induction ms as [|e els IH]; intros [|e' els'] W W' H; try discriminate; [constructor|]. cbn [map] in H. injection H as H0 H1 H2.
  inversion W; inversion W'; subst. constructor; [split; [exact H0|exists (m_val e), (m_val e'); auto]|apply IH; assumption].
Qed.

Lemma els_wf w els : wf (JArr w els) = true -> Forall (fun e => wf (e_val e) = true) els.
Proof. rewrite wf_arr. intro H. apply andb_true_iff in H. destruct H as [_ H]. rewrite forallb_forall in H. apply Forall_forall. intros e He. specialize (H e He). unfold elem_ok in H. rewrite !andb_true_iff in H. tauto. Qed.
Lemma ms_wf w ms : wf (JObj w ms) = true -> Forall (fun m => wf (m_val m) = true) ms.
Proof. rewrite wf_obj. intro H. apply andb_true_iff in H. destruct H as [_ H]. rewrite forallb_forall in H. apply Forall_forall. intros e He. specialize (H e He). unfold mem_ok in H. rewrite !andb_true_iff in H. tauto. Qed.
Section Iterators.
  Context {St St' : Type}.
  Variable R : St -> St' -> Prop.
  Definition ends_alike (r : itres St) (r' : itres St') : Prop :=
    match r, r' with IDone s e, IDone s' e' => R s s' /\ e = e' | _, _ => False end.
  Theorem iterate_array_alike d d' p w els (cb : St -> bytes -> St * (bool * option err)) (cb' : St' -> bytes -> St' * (bool * option err)) s s' :
    wf_doc d = true -> wf_doc d' = true -> content (d_val d) = content (d_val d') -> lookup (d_val d) p = Some (JArr w els) -> els <> [] ->
    (forall s s' x x', R s s' -> shown_alike x x' -> R (fst (cb s x)) (fst (cb' s' x')) /\ snd (cb s x) = snd (cb' s' x')) ->
    R s s' -> ends_alike (IterateArray (text d) cb p s) (IterateArray (text d') cb' p s').
  Proof.
    intros Hw Hw' Hc Hl Hne Hcb HR. destruct (lookup_same _ _ _ _ Hc Hl) as ([t|t|w' els'|w' ms'] & Hl' & E); try discriminate E. cbn [content] in E. injection E as E.
    assert (Hne' : els' <> []) by (intros ->; destruct els; [congruence|discriminate E]).
    rewrite (iterate_array cb d p w els s Hw Hl Hne), (iterate_array cb' d' p w' els' s' Hw' Hl' Hne').
    pose proof (visit_alike shown_alike R cb cb' Hcb _ _ (items_alike _ _ (els_wf _ _ (lookup_wf _ _ _ Hw Hl)) (els_wf _ _ (lookup_wf _ _ _ Hw' Hl')) E) s s' HR) as V.
    destruct (visit cb (items els) s), (visit cb' (items els') s'). exact V.
  Qed.
  Theorem iterate_kv_alike d d' p w ms w' ms' (cb : St -> bytes -> bytes -> St * (bool * option err)) (cb' : St' -> bytes -> bytes -> St' * (bool * option err)) s s' :
    wf_doc d = true -> wf_doc d' = true -> content (d_val d) = content (d_val d') -> lookup (d_val d) p = Some (JObj w ms) -> lookup (d_val d') p = Some (JObj w' ms') -> ms <> [] ->
    Forall tight (removelast ms) -> Forall tight (removelast ms') ->
    (forall s s' k x x', R s s' -> shown_alike x x' -> R (fst (cb s k x)) (fst (cb' s' k x')) /\ snd (cb s k x) = snd (cb' s' k x')) ->
    R s s' -> ends_alike (IterateKeyValue (text d) cb p s) (IterateKeyValue (text d') cb' p s').
  Proof.
    intros Hw Hw' Hc Hl Hl' Hne Ht Ht' Hcb HR. destruct (object_same _ _ _ _ _ Hc Hl) as (w1 & ms1 & Hl1 & E). rewrite Hl1 in Hl'. injection Hl' as -> ->. cbn [content] in E. injection E as E.
    assert (Hne' : ms' <> []) by (intros ->; destruct ms; [congruence|discriminate E]).
    rewrite (iterate_kv_tight cb d p w ms s Hw Hl Hne Ht), (iterate_kv_tight cb' d' p w' ms' s' Hw' Hl1 Hne' Ht'). pose proof (pairs_alike _ _ (ms_wf _ _ (lookup_wf _ _ _ Hw Hl)) (ms_wf _ _ (lookup_wf _ _ _ Hw' Hl1)) E) as P.
    assert (H2 : forall s s' x x', R s s' -> fst x = fst x' /\ shown_alike (snd x) (snd x') -> R (fst (uncurry2 cb s x)) (fst (uncurry2 cb' s' x')) /\ snd (uncurry2 cb s x) = snd (uncurry2 cb' s' x')).
    { intros t t' x x' Ht0 [Ek Ex]. unfold uncurry2. rewrite Ek. apply Hcb; assumption. }
    split; [exact (proj1 (visit_alike _ R _ _ H2 _ _ P s s' HR))|exact (proj2 (visit_alike _ R _ _ H2 _ _ (removelast_forall2 _ _ _ P) s s' HR))].
  Qed.
End Iterators.
