(** Documents made of nested Go maps and slices change as the maps and slices do (C80). *)
From Coq Require Import String Lia.
From Verif Require Import GoStd Json Spec SpecProofs Focus Domains Core Skip CoreProofs Errors Api ApiProofs Updates Parse Ops History Neat Laws SpecFlat
  Typed TypedProofs SpecTyped Make MakeProofs Layout Flat SpecMade Made SpecDeep.
From Verif Require SpecIter Iter RfcProofs.

Local Open Scope N_scope.

Section made_ind.
  Context (P : made -> Prop) (H1 : forall s, P (MStr s)) (H2 : forall ps, Forall (fun kv => P (snd kv)) ps -> P (MMap ps)) (H3 : forall ms, Forall P ms -> P (MList ms)).
  Fixpoint made_ind' (m : made) : P m :=
    match m with
    | MStr s => H1 s
    | MMap ps => H2 ps ((fix go ps : Forall (fun kv => P (snd kv)) ps := match ps with [] => Forall_nil _ | kv :: r => Forall_cons kv (made_ind' (snd kv)) (go r) end) ps)
    | MList ms => H3 ms ((fix go ms : Forall P ms := match ms with [] => Forall_nil _ | m :: r => Forall_cons m (made_ind' m) (go r) end) ms)
    end.
End made_ind.

Lemma good_map pf ps : good pf (MMap ps) <-> Forall (fun kv => str_ok (fst kv) = true /\ good pf (snd kv)) ps.
Proof. cbn [good]. induction ps as [|kv ps IH]; cbn [fold_right]; [split; constructor|]. rewrite IH. split; [intros (? & ? & ?); constructor; auto|intro H; inversion H; subst; tauto]. Qed.
Lemma good_list pf ms : good pf (MList ms) <-> Forall (good pf) ms.
Proof. cbn [good]. induction ms as [|m ms IH]; cbn [fold_right]; [split; constructor|]. rewrite IH. split; [intros (? & ?); constructor; auto|intro H; inversion H; subst; tauto]. Qed.

(** ** The content *)
Fixpoint cont (pf : bytes -> bool) (m : made) : jd :=
  match m with
  | MStr s => tok pf s
  | MMap ps => DObj (map (fun kv => (fst kv, cont pf (snd kv))) ps)
  | MList ms => DArr (map (cont pf) ms)
  end.
Lemma cont_map pf ps : cont pf (MMap ps) = DObj (mv (cont pf) ps).
Proof. reflexivity. Qed.

Lemma cont_ok pf m : good pf m ->
  wf (tree (cont pf m)) = true /\ flat (cont pf m) = formatType pf (make pf m) /\ shown (cont pf m) = make pf m /\ (filled m -> flat (cont pf m) = make pf m).
Proof.
  assert (C : forall m, match cont pf m with DArr _ | DObj _ => True | _ => False end -> wf (tree (cont pf m)) = true -> flat (cont pf m) = make pf m ->
                wf (tree (cont pf m)) = true /\ flat (cont pf m) = formatType pf (make pf m) /\ shown (cont pf m) = make pf m /\ (filled m -> flat (cont pf m) = make pf m)).
  { intros x Hc Hw E. split; [exact Hw|]. split; [rewrite <- E; symmetry; apply tok_nested; assumption|]. split; [|intros _; exact E]. rewrite <- E. destruct (cont pf x); try contradiction; reflexivity. }
  induction m as [s|ps IH|ms IH] using made_ind'; intro H.
  - cbn [cont make] in *. destruct (tok_fit pf s (or_introl H)) as (E1 & E2 & E3). split; [exact E2|]. split; [exact E1|]. split; [exact E3|]. intros [].
  - apply good_map in H. rewrite Forall_forall in *. apply C; [exact I| |].
    + cbn [cont tree]. rewrite wf_obj. cbn [ws_ok forallb andb]. rewrite map_map, RfcProofs.forallb_map, forallb_forall. intros [k v] Hi. unfold mem_ok. cbn.
      destruct (H _ Hi) as [Hk Hv]. cbn [fst snd] in *. rewrite Hk. destruct (IH _ Hi Hv) as (W & _). cbn [snd] in W. rewrite W. reflexivity.
    + cbn [cont make]. destruct ps as [|p ps]; [reflexivity|]. unfold flat. cbn [tree].
      replace (JObj [] _) with (obj_of (map (fun kv => (fst kv, tree (cont pf (snd kv)))) (p :: ps))) by (unfold obj_of; rewrite !map_map; reflexivity).
      rewrite <- build_obj by discriminate. change (nonnil (map ?f (p :: ps))) with (Some (map f (p :: ps))). unfold MakeJsonWithMap. rewrite !map_map. f_equal. apply map_ext_in.
      intros [k v] Hi. unfold pair_item. cbn [fst snd]. destruct (IH _ Hi (proj2 (H _ Hi))) as (_ & E & _). cbn [snd] in E. rewrite <- E. reflexivity.
  - apply good_list in H. rewrite Forall_forall in *. apply C; [exact I| |].
    + cbn [cont tree]. rewrite wf_arr. cbn [ws_ok forallb andb]. rewrite map_map, RfcProofs.forallb_map, forallb_forall. intros x Hx. unfold elem_ok. cbn. rewrite (proj1 (IH x Hx (H x Hx))). reflexivity.
    + cbn [cont make]. destruct ms as [|p ms]; [reflexivity|]. rewrite <- made_array_bytes by discriminate. change (nonnil (map ?f (p :: ms))) with (Some (map f (p :: ms))). unfold MakeArrayString, MakeArrayBytes.
      rewrite !map_map. f_equal. apply map_ext_in. intros x Hx. destruct (IH x Hx (H x Hx)) as (_ & E & _). congruence.
Qed.

(** ** Paths *)
Lemma tok_child pf s x : fit pf s -> d_child (tok pf s) x = None.
Proof. intro H. destruct (tok_simple pf s H) as [(-> & _)|(-> & _)]; reflexivity. Qed.
Lemma cont_child pf m x : good pf m -> d_child (cont pf m) x = option_map (cont pf) (m_child m x).
Proof.
  intro H. destruct m as [s|ps|ms]; cbn [m_child option_map]; [apply tok_child, H| |].
  - rewrite cont_map. cbn [d_child]. apply mv_assoc.
  - cbn [cont d_child]. destruct (atoi x); [apply nth_z_map|reflexivity].
Qed.
Lemma good_child pf m x c : good pf m -> m_child m x = Some c -> good pf c.
Proof.
  destruct m as [s|ps|ms]; cbn [m_child]; intros H E; [discriminate| |].
  - apply good_map in H. rewrite Forall_forall in H. clear -H E. induction ps as [|[k v] ps IH]; [discriminate|]. cbn [assoc] in E. destruct (bytes_eqb k x).
    + injection E as <-. apply (H (k, v)). left. reflexivity.
    + apply IH; [|exact E]. intros y Hy. apply H. right. exact Hy.
  - apply good_list in H. destruct (atoi x) as [z|]; [|discriminate]. rewrite Forall_forall in H. apply H. unfold nth_z in E. destruct (_ && _); [|discriminate]. eapply nth_error_In, E.
Qed.
Lemma cont_at pf p : forall m, good pf m -> d_lookup (cont pf m) p = option_map (cont pf) (m_at m p).
Proof.
  induction p as [|x p IH]; intros m H; [reflexivity|]. cbn [d_lookup m_at]. rewrite (cont_child pf m x H). destruct (m_child m x) as [c|] eqn:E; [|reflexivity].
  cbn [option_map]. apply IH. eapply good_child; eassumption.
Qed.
Lemma good_at pf p : forall m x, good pf m -> m_at m p = Some x -> good pf x.
Proof.
  induction p as [|y p IH]; intros m x H E; cbn [m_at] in E; [injection E as <-; exact H|]. destruct (m_child m y) as [c|] eqn:Ec; [|discriminate].
  eapply IH; [eapply good_child; eassumption|exact E].
Qed.
Lemma good_put pf m x v : good pf m -> good pf v -> good pf (m_put m x v).
Proof.
  intros H Hv. destruct m as [s|ps|ms]; cbn [m_put]; [exact H| |].
  - apply good_map in H. apply good_map. induction H as [|[k u] ps [H1 H2] H3 IH]; cbn [assoc_set]; [constructor|]. destruct (bytes_eqb k x); constructor; cbn [fst snd] in *; auto.
  - destruct (atoi x); [|exact H]. apply good_list in H. apply good_list. apply set_nth_ok; assumption.
Qed.
Lemma cont_put pf m x v c : m_child m x = Some c -> d_set_child (cont pf m) x (cont pf v) = cont pf (m_put m x v).
Proof.
  destruct m as [s|ps|ms]; cbn [m_child m_put]; intro E; [discriminate| |].
  - rewrite !cont_map. cbn [d_set_child]. rewrite mv_set. reflexivity.
  - destruct (atoi x) as [z|] eqn:Ez; [|discriminate]. cbn [cont d_set_child]. rewrite Ez. f_equal. apply (set_nth_map (cont pf)).
Qed.
(** [g] does on contents what [f] does. *)
Definition alike pf (f : made -> option made) (g : jd -> option jd) : Prop :=
  forall x, good pf x -> g (cont pf x) = option_map (cont pf) (f x) /\ forall y, f x = Some y -> good pf y.
Lemma cont_change pf f g p : alike pf f g -> forall m, good pf m ->
  d_modify (cont pf m) p g = option_map (cont pf) (m_change m p f) /\ forall m', m_change m p f = Some m' -> good pf m' /\ (p <> [] -> filled m').
Proof.
  intro A. induction p as [|x p IH]; intros m H; cbn [d_modify m_change].
  - destruct (A m H) as [A1 A2]. split; [exact A1|]. intros m' E. split; [apply A2, E|]. intro N. contradiction N. reflexivity.
  - rewrite (cont_child pf m x H). destruct (m_child m x) as [c|] eqn:E; [|split; [reflexivity|discriminate]]. cbn [option_map].
    destruct (IH c (good_child _ _ _ _ H E)) as [I1 I2]. rewrite I1. destruct (m_change c p f) as [v|] eqn:Ev; [|split; [reflexivity|discriminate]]. cbn [option_map].
    split; [f_equal; eapply cont_put, E|]. intros m' [= <-]. split; [apply good_put; [exact H|apply (I2 v eq_refl)]|]. intros _. destruct m; [discriminate E|exact I|]. cbn [m_put]. destruct (atoi x); exact I.
Qed.

(** ** The calls *)
Definition op_of pf (c : mcmd) : op :=
  match c with
  | MSet p v => OSet p (tree (cont pf v))
  | MDelete p x => ODelete p x
  | MStore p k v => OStore p k (tree (cont pf v))
  | MAddKey p k v => OAddKV p k (tree (cont pf v))
  | MRename p x k => OSetKey p x k
  | MAppend p v => OAdd p (tree (cont pf v))
  | MInsert p i v => OInsert p i (tree (cont pf v))
  end.
Lemma good_assoc_set pf ps k v : good pf (MMap ps) -> good pf v -> good pf (MMap (assoc_set k v ps)).
Proof. intros H Hv. exact (good_put pf (MMap ps) k v H Hv). Qed.
Lemma good_snoc pf ps k v : good pf (MMap ps) -> str_ok k = true -> good pf v -> good pf (MMap (ps ++ [(k, v)])).
Proof. intros H Hk Hv. apply good_map in H. apply good_map. apply Forall_app. split; [exact H|]. constructor; [split; assumption|constructor]. Qed.
Lemma assoc_filter pf (f : list (bytes * made) -> list (bytes * made)) ps : (forall x, In x (f ps) -> In x ps) -> good pf (MMap ps) -> good pf (MMap (f ps)).
Proof. intros Hf H. apply good_map in H. apply good_map. rewrite Forall_forall in *. auto. Qed.
Lemma good_rename pf ps k n : good pf (MMap ps) -> str_ok n = true -> good pf (MMap (assoc_rename k n ps)).
Proof.
  intros H Hn. apply good_map in H. apply good_map. induction H as [|[k' u] ps [H1 H2] H3 IH]; cbn [assoc_rename]; [constructor|]. destruct (bytes_eqb k' k); constructor; cbn [fst snd] in *; auto.
Qed.
Lemma tok_not_container pf s : fit pf s -> match tok pf s with DArr _ | DObj _ => False | _ => True end.
Proof. intro H. destruct (tok_simple pf s H) as [(-> & _)|(-> & _)]; exact I. Qed.
Lemma effect_alike pf m c : mcmd_ok pf m c -> good pf m ->
  meaning (op_of pf c) (cont pf m) = option_map (cont pf) (m_effect c m) /\ forall m', m_effect c m = Some m' -> good pf m' /\ (match c with MSet p _ => p <> [] | _ => filled m end -> filled m').
Proof.
  intros Hc Hm.
  assert (T : forall s, fit pf s -> (forall x, d_remove x (tok pf s) = None) /\ (forall k v, d_store k v (tok pf s) = None) /\ (forall k v, d_add k v (tok pf s) = None) /\
     (forall x k, d_rename x k (tok pf s) = None) /\ (forall v, d_append v (tok pf s) = None) /\ (forall i v, d_insert i v (tok pf s) = None)).
  { intros s Hs. destruct (tok_simple pf s Hs) as [(-> & _)|(-> & _)]; repeat split; reflexivity. }
  assert (R : forall p f g, alike pf f g -> (forall y, f m = Some y -> filled m -> filled y) ->
     d_modify (cont pf m) p g = option_map (cont pf) (m_change m p f) /\ forall m', m_change m p f = Some m' -> good pf m' /\ (filled m -> filled m')).
  { intros p f g A F. destruct (cont_change pf f g p A m Hm) as [C1 C2]. split; [exact C1|]. intros m' E. split; [apply (C2 m' E)|]. intro Hf. destruct p; [exact (F m' E Hf)|]. apply (C2 m' E). discriminate. }
  destruct c as [p v|p x|p k v|p k v|p x k|p v|p i v]; cbn [op_of meaning m_effect mcmd_ok] in *.
  - rewrite content_tree. apply cont_change; [|exact Hm]. intros x Hx. unfold d_const. cbn. split; [reflexivity|]. intros y [= <-]. apply Hc.
  - apply R.
    + intros u Hu. destruct u as [s|ps|ms]; cbn [m_remove].
      * split; [apply T, Hu|discriminate].
      * rewrite cont_map. cbn [d_remove]. rewrite mv_assoc. destruct (assoc x ps) as [w|]; [|split; [reflexivity|discriminate]]. cbn [option_map]. rewrite cont_map, mv_remove. split; [reflexivity|].
        intros y [= <-]. apply (assoc_filter pf (assoc_remove x)); [apply remove_sub|exact Hu].
      * cbn [cont d_remove]. destruct (atoi x) as [z|]; [|split; [reflexivity|discriminate]]. rewrite nth_z_map. destruct (nth_z ms z); [|split; [reflexivity|discriminate]]. cbn [option_map cont].
        rewrite (remove_nth_map (cont pf)). split; [reflexivity|]. intros y [= <-]. apply good_list in Hu. apply good_list. apply remove_nth_ok, Hu.
    + intros y E Hf. destruct m as [s|ps|ms]; cbn [m_remove] in E; [discriminate| |].
      * destruct (assoc x ps); [injection E as <-; exact I|discriminate].
      * destruct (atoi x); [|discriminate]. destruct (nth_z ms z); [injection E as <-; exact I|discriminate].
  - destruct Hc as (Hk & Hv & _). rewrite content_tree. apply R.
    + intros u Hu. destruct u as [s|ps|ms]; [split; [apply T, Hu|discriminate]| |split; [reflexivity|discriminate]].
      rewrite cont_map. cbn [d_store]. rewrite mv_assoc. destruct (assoc k ps) as [w|]; cbn [option_map]; rewrite cont_map.
      * rewrite mv_set. split; [reflexivity|]. intros y [= <-]. apply good_assoc_set; assumption.
      * rewrite mv_app. split; [reflexivity|]. intros y [= <-]. apply good_snoc; assumption.
    + intros y E _. destruct m; try discriminate E. injection E as <-. exact I.
  - destruct Hc as (Hk & Hv & _). rewrite content_tree. apply R.
    + intros u Hu. destruct u as [s|ps|ms]; [split; [apply T, Hu|discriminate]| |split; [reflexivity|discriminate]].
      rewrite cont_map. cbn [d_add]. rewrite mv_assoc. destruct (assoc k ps) as [w|]; cbn [option_map]; [split; [reflexivity|discriminate]|]. rewrite cont_map.
      rewrite mv_app. split; [reflexivity|]. intros y [= <-]. apply good_snoc; assumption.
    + intros y E _. destruct m; try discriminate E. destruct (assoc k ps); [discriminate E|]. injection E as <-. exact I.
  - destruct Hc as (Hk & _). apply R.
    + intros u Hu. destruct u as [s|ps|ms]; [split; [apply T, Hu|discriminate]| |split; [reflexivity|discriminate]].
      rewrite cont_map. cbn [d_rename]. rewrite !mv_assoc. destruct (assoc k ps) as [w|], (assoc x ps) as [w'|]; cbn [option_map]; try (split; [reflexivity|discriminate]). rewrite cont_map, mv_rename.
      split; [reflexivity|]. intros y [= <-]. apply good_rename; assumption.
    + intros y E _. destruct m; try discriminate E. destruct (assoc k ps); [discriminate E|]. destruct (assoc x ps); [|discriminate E]. injection E as <-. exact I.
  - rewrite content_tree. apply R.
    + intros u Hu. destruct u as [s|ps|ms]; [split; [apply T, Hu|discriminate]|split; [reflexivity|discriminate]|].
      cbn [cont d_append option_map]. rewrite map_app. split; [reflexivity|]. intros y [= <-]. apply good_list in Hu. apply good_list. apply Forall_app. split; [exact Hu|]. constructor; [exact Hc|constructor].
    + intros y E _. destruct m; try discriminate E. injection E as <-. exact I.
  - destruct Hc as (Hi & Hv). rewrite content_tree. apply R.
    + intros u Hu. destruct u as [s|ps|ms]; [split; [apply T, Hu|discriminate]|split; [reflexivity|discriminate]|].
      cbn [cont d_insert]. rewrite nth_z_map. destruct (nth_z ms i); cbn [option_map]; [|split; [reflexivity|discriminate]]. cbn [cont]. rewrite map_app, firstn_map. cbn [map]. rewrite skipn_map.
      split; [reflexivity|]. intros y [= <-]. apply good_list in Hu. apply good_list. rewrite <- (firstn_skipn (Z.to_nat i) ms) in Hu. apply Forall_app in Hu. destruct Hu. apply Forall_app. split; [assumption|]. constructor; assumption.
    + intros y E _. destruct m; try discriminate E. destruct (nth_z ms i); [|discriminate E]. injection E as <-. exact I.
Qed.

Lemma make_text pf m : good pf m -> filled m -> make pf m = text (plain (cont pf m)).
Proof. intros H Hf. rewrite plain_text. symmetry. apply cont_ok; assumption. Qed.
Lemma new_absent pf m p k ps : good pf m -> filled m -> new_in (make pf m) k -> m_at m p = Some (MMap ps) -> assoc k ps = None -> seen_absent (plain (cont pf m)) p k.
Proof.
  intros H Hf (N1 & N2 & N3) Ha Hk. assert (L : d_lookup (cont pf m) p = Some (DObj (mv (cont pf) ps))) by (rewrite cont_at, Ha by exact H; reflexivity).
  apply flat_lookup in L. exists []. eexists. split; [exact L|]. split; [|right; rewrite (make_text pf m H Hf) in *; auto].
  apply assoc_none in Hk. destruct (find_mem _ _) as [x|] eqn:E; [|reflexivity]. exfalso. apply find_some in E. destruct E as [Hi E]. apply in_map_iff in Hi.
  destruct Hi as ([k' c] & <- & Hi). cbn in E. apply bytes_eqb_eq in E. subst k'. apply Hk. rewrite <- (mv_fst (cont pf) ps). exact (in_map fst _ _ Hi).
Qed.
Lemma change_at f p : forall m m', m_change m p f = Some m' -> exists x, m_at m p = Some x /\ f x <> None.
Proof.
  induction p as [|y p IH]; intros m m' E; cbn [m_change m_at] in *; [exists m; rewrite E; split; [reflexivity|discriminate]|].
  destruct (m_child m y) as [c|]; [|discriminate]. destruct (m_change c p f) as [v|] eqn:Ev; [|discriminate]. exact (IH c v Ev).
Qed.
Lemma m_at_app p : forall m q, m_at m (p ++ q) = match m_at m p with Some x => m_at x q | None => None end.
Proof. induction p as [|x p IH]; intros m q; cbn [app m_at]; [reflexivity|]. destruct (m_child m x); [apply IH|reflexivity]. Qed.

Lemma deep_legal pf m c m' : good pf m -> filled m -> mcmd_ok pf m c -> m_effect c m = Some m' ->
  flat_op (op_of pf c) /\ legal (plain (cont pf m)) (op_of pf c) /\ do_mcmd pf c (flat (cont pf m)) = call (op_of pf c) (flat (cont pf m)).
Proof.
  intros H Hf Hc He. destruct (effect_alike pf m c Hc H) as [E1 E2]. rewrite He in E1. cbn [option_map] in E1.
  assert (V : forall v, good pf v -> formatType pf (make pf v) = render (tree (cont pf v)) /\ wf (tree (cont pf v)) = true /\ render (tree (cont pf v)) = flat (content (tree (cont pf v)))).
  { intros v Hv. destruct (cont_ok pf v Hv) as (W' & E & _). split; [symmetry; exact E|]. split; [exact W'|]. rewrite content_tree. reflexivity. }
  destruct c as [p v|p x|p k v|p k v|p x k|p v|p i v]; cbn [op_of do_mcmd mcmd_ok m_effect] in *.
  - destruct Hc as [Hp Hv]. destruct (V v Hv) as (V1 & V2 & V3). unfold SetString. rewrite V1. split; [exact V3|]. split; [split; assumption|reflexivity].
  - split; [exact I|]. split; [exact I|reflexivity].
  - destruct Hc as (Hk & Hv & Hn). destruct (V v Hv) as (V1 & V2 & V3). unfold StoreString. rewrite V1. split; [exact V3|]. split; [|reflexivity]. split; [exact V2|]. split; [exact Hk|].
    destruct (change_at _ _ _ _ He) as (u & Hu & Hnn). destruct u as [s|ps|ms]; [contradiction Hnn; reflexivity| |contradiction Hnn; reflexivity].
    assert (L : d_lookup (content (d_val (plain (cont pf m)))) (p ++ [k]) = option_map (cont pf) (assoc k ps)).
    { cbn [plain d_val]. rewrite content_tree, cont_at by exact H. rewrite m_at_app, Hu. cbn [m_at m_child]. destruct (assoc k ps); reflexivity. }
    destruct (assoc k ps) as [w|] eqn:Ek; [left; rewrite L; discriminate|]. right. destruct Hn as [Hn|Hn].
    + exfalso. apply Hn. rewrite m_at_app, Hu. cbn [m_at m_child]. rewrite Ek. reflexivity.
    + eapply new_absent; eassumption.
  - destruct Hc as (Hk & Hv & Hn). destruct (V v Hv) as (V1 & V2 & V3). unfold AddKeyValueString. destruct k as [|k0 k1] eqn:Ek; [destruct Hn as [Hn _]; contradiction Hn; reflexivity|]. rewrite <- Ek in *. clear Ek k0 k1.
    rewrite V1. split; [exact V3|]. split; [|reflexivity]. split; [exact V2|]. split; [exact Hk|]. left.
    destruct (change_at _ _ _ _ He) as (u & Hu & Hnn). destruct u as [s|ps|ms]; [contradiction Hnn; reflexivity| |contradiction Hnn; reflexivity].
    destruct (assoc k ps) as [w|] eqn:Ek; [contradiction Hnn; reflexivity|]. eapply new_absent; eassumption.
  - destruct Hc as (Hk & Hn). split; [exact I|]. split; [|reflexivity]. split; [exact Hk|]. split; [apply Hn|].
    destruct (change_at _ _ _ _ He) as (u & Hu & Hnn). destruct u as [s|ps|ms]; [contradiction Hnn; reflexivity| |contradiction Hnn; reflexivity].
    destruct (assoc k ps) as [w|] eqn:Ek; [contradiction Hnn; reflexivity|]. eapply new_absent; eassumption.
  - destruct (V v Hc) as (V1 & V2 & V3). unfold AddString. rewrite V1. split; [exact V3|]. split; [exact V2|reflexivity].
  - destruct Hc as (Hi & Hv). destruct (V v Hv) as (V1 & V2 & V3). destruct (change_at _ _ _ _ He) as (u & Hu & Hnn). destruct u as [s|ps|ms]; [contradiction Hnn; reflexivity|contradiction Hnn; reflexivity|].
    assert (I0 : (i <? 0)%Z = false). { destruct (nth_z ms i) eqn:En; [|contradiction Hnn; reflexivity]. unfold nth_z in En. destruct (0 <=? i)%Z eqn:E0; [lia|discriminate]. }
    unfold InsertString. rewrite I0, V1. split; [exact V3|]. split; [|reflexivity]. eapply (array_legal _ (OInsert p i _)); [split; [exact V2|unfold in_int64 in Hi; lia]|exact E1].
Qed.
Theorem deep_call pf m c m' : good pf m -> filled m -> mcmd_ok pf m c -> m_effect c m = Some m' ->
  do_mcmd pf c (make pf m) = Done (make pf m') /\ good pf m' /\ filled m'.
Proof.
  intros H Hf Hc He. destruct (effect_alike pf m c Hc H) as [E1 E2]. rewrite He in E1. cbn [option_map] in E1. destruct (E2 m' He) as [G F].
  assert (F' : filled m') by (apply F; destruct c; try exact Hf; apply Hc).
  split; [|auto]. destruct (cont_ok pf m H) as (W & _ & _ & Em). destruct (cont_ok pf m' G) as (_ & _ & _ & Em'). rewrite <- (Em Hf), <- (Em' F').
  destruct (deep_legal pf m c m' H Hf Hc He) as (L1 & L2 & ->). exact (proj1 (flat_update _ _ _ W L1 L2 E1)).
Qed.

(** Histories. *)
Theorem deep_history pf cs : forall m m', good pf m -> filled m -> m_goes pf cs m m' ->
  run_calls (do_mcmd pf) cs (make pf m) = Some (make pf m') /\ good pf m' /\ filled m'.
Proof.
  induction cs as [|c cs IH]; intros m m' H Hf Hg; cbn [m_goes run_calls] in *; [subst; auto|]. destruct Hg as (Hc & m1 & He & Hg).
  destruct (deep_call pf m c m1 H Hf Hc He) as (-> & G & F). apply IH; assumption.
Qed.

(** ** Reading *)
Theorem deep_reads pf m p x : good pf m -> filled m -> m_at m p = Some x ->
  (p <> [] -> Get (make pf m) p = Ok (make pf x)) /\
  match x with
  | MStr _ => True
  | MMap ps => ps <> [] -> Iter.GetKeys (make pf m) p = Ok (map fst ps) /\ Iter.GetValues (make pf m) p = Ok (map (fun kv => make pf (snd kv)) ps) /\
      Iter.Length (make pf m) p = Ok (length ps)
  | MList ms => ms <> [] -> Iter.GetStringArray (make pf m) p = Ok (map (make pf) ms) /\ (p <> [] \/ (2 <= length ms)%nat -> Iter.Length (make pf m) p = Ok (length ms))
  end.
Proof.
  intros H Hf Ha. destruct (cont_ok pf m H) as (W & _ & _ & E). rewrite <- (E Hf). pose proof (good_at pf p m x H Ha) as Hx.
  assert (L : d_lookup (cont pf m) p = Some (cont pf x)) by (rewrite cont_at, Ha by exact H; reflexivity).
  split; [intro Hp; rewrite (flat_get _ p _ W Hp L); f_equal; apply cont_ok, Hx|]. destruct x as [s|ps|ms]; [exact I| |]; intro Hne.
  - rewrite cont_map in L. destruct (flat_object unit _ p _ W L) as (K & V & _ & Le & _); [destruct ps; [contradiction|discriminate]|]. rewrite mv_fst in K. unfold mv in V, Le. rewrite map_map in V. rewrite map_length in Le.
    split; [exact K|]. split; [|exact Le]. rewrite V. f_equal. apply map_ext_in. intros kv Hi. cbn [snd]. apply good_map in Hx. rewrite Forall_forall in Hx. apply cont_ok. apply (Hx kv Hi).
  - cbn [cont] in L. destruct (flat_array unit unit (fun _ => None) _ p _ W L) as (S & _ & _ & _ & Le & _); [destruct ms; [contradiction|discriminate]|]. rewrite map_map in S. rewrite map_length in Le. split.
    + rewrite S. f_equal. apply map_ext_in. intros y Hy. apply good_list in Hx. rewrite Forall_forall in Hx. apply cont_ok, (Hx y Hy).
    + intro Hc. apply Le. tauto.
Qed.

(** ** Calls that do not apply *)
Theorem deep_refused pf m q m' x r : good pf m -> filled m -> m_at m q = Some m' -> m_child m' x = None ->
  match m' with MStr _ => False | MMap _ => new_in (make pf m) x | MList _ => True end ->
  let t := make pf m in let p := q ++ x :: r in let e := m_miss m' x r in
  Get t p = Err e /\ Delete t p = Fail (Some t) e /\ (forall v, SetString pf t v p = Fail (Some t) e) /\ (forall v, AddString pf t v p = Fail (Some t) e) /\
  (forall k v, k <> [] -> AddKeyValueString pf t k v p = Fail (Some t) e) /\ (forall i v, (0 <= i)%Z -> InsertString pf t i v p = Fail (Some t) e).
Proof.
  intros H Hf Ha Hc Hn. pose proof (make_text pf m H Hf) as E. destruct (cont_ok pf m H) as (W & _). apply plain_wf in W.
  assert (L : lookup (d_val (plain (cont pf m))) q = Some (tree (cont pf m'))) by (apply flat_lookup; rewrite cont_at, Ha by exact H; reflexivity).
  assert (G : Get (make pf m) (q ++ x :: r) = Err (m_miss m' x r)).
  { destruct m' as [s|ps|ms]; [contradiction| |].
    - rewrite E. apply get_seen_absent; [exact W|]. eapply new_absent; eassumption.
    - cbn [m_child] in Hc. cbn [cont tree] in L. rewrite map_map in L. destruct (get_bad_step _ q x r _ _ W L) as [B1 B2]. rewrite E. cbn [m_miss]. destruct (atoi x) as [z|] eqn:Ez.
      + rewrite (B2 z eq_refl) by (rewrite nth_z_map, Hc; reflexivity). destruct ms; reflexivity.
      + apply B1. reflexivity. }
  cbv zeta. split; [exact G|].
  pose proof (fun new key value index => LookupFails.updates_fail _ _ _ G new key value index) as U.
  split; [apply (U [] [] None 0%Z)|]. split; [intro v; apply (U _ [] None 0%Z)|]. split; [intro v; apply (U _ [] None 0%Z)|]. split.
  - intros k v Hk. unfold AddKeyValueString. destruct k; [contradiction|]. apply (U [] _ _ 0%Z).
  - intros i v Hi. unfold InsertString. destruct (i <? 0)%Z eqn:E0; [lia|]. apply (U _ [] None i).
Qed.
Theorem deep_taken pf m q ps k u : good pf m -> filled m -> m_at m q = Some (MMap ps) -> assoc k ps = Some u -> k <> [] -> let t := make pf m in
  (forall v, AddKeyValueString pf t k v q = Fail (Some t) (EKeyAlreadyExist k)) /\ forall x, SetKey t k (q ++ [x]) = Fail (Some t) (EBadJSON 0).
Proof.
  intros H Hf Ha Hk Hn. cbv zeta. pose proof (make_text pf m H Hf) as E. destruct (cont_ok pf m H) as (W & _). apply plain_wf in W. rewrite E.
  assert (L : d_lookup (content (d_val (plain (cont pf m)))) (q ++ [k]) = Some (cont pf u)).
  { cbn [plain d_val]. rewrite content_tree, cont_at by exact H. rewrite m_at_app, Ha. cbn [m_at m_child]. rewrite Hk. reflexivity. }
  split.
  - intro v. unfold AddKeyValueString. destruct k as [|k0 k1] eqn:Ek; [contradiction|]. rewrite <- Ek in *. eapply add_kv_present; [exact W|exact L|].
    exists []. eexists. rewrite (flat_lookup (cont pf m) q (cont pf (MMap ps))); [reflexivity|]. rewrite cont_at, Ha by exact H. reflexivity.
  - intro x. eapply setkey_taken; [exact W|exact Hn|exact L].
Qed.
