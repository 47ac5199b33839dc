(** A Parser of a document made of a Go map (C79). *)
From Coq Require Import String Lia.
From Verif Require Import GoStd Json Spec SpecProofs Focus Domains Core Skip CoreProofs Errors Api ApiProofs Updates Parse Ops History Neat Laws SpecFlat
  Typed TypedProofs SpecTyped Make MakeProofs SpecParser Parser ParserProofs SpecParserOps ParserGet ParserUpd ParserOps ParserInsert ParserRefuse Flat SpecMade Made.
From Verif Require SpecIter.

Local Open Scope N_scope.

(** ** A flat text is the text of one document only *)
Lemma join_length {A} (f g : A -> bytes) l : (forall x, In x l -> length (f x) <= length (g x))%nat ->
  (length (join (map f l)) <= length (join (map g l)))%nat /\
  (length (join (map g l)) = length (join (map f l)) -> forall x, In x l -> length (g x) = length (f x)).
Proof.
  induction l as [|x l IH]; intro H; [split; [constructor|intros _ x []]|]. destruct IH as [I1 I2]; [intros y Hy; apply H; right; exact Hy|].
  pose proof (H x (or_introl eq_refl)) as Hx. destruct l as [|y l].
  - cbn [map join] in *. split; [exact Hx|]. intros E z [<-|[]]. exact E.
  - change (map f (x :: y :: l)) with (f x :: map f (y :: l)). change (map g (x :: y :: l)) with (g x :: map g (y :: l)).
    assert (J : forall a r, r <> [] -> join (a :: r) = a ++ 44 :: join r) by (intros a [|c r]; [contradiction|reflexivity]).
    rewrite !J by discriminate. rewrite !app_length. cbn [length]. split; [lia|]. intros E z [<-|Hz]; [lia|]. apply I2; [lia|exact Hz].
Qed.
Lemma strip_shorter v : (length (render (tree (content v))) <= length (render v))%nat /\
  (length (render v) = length (render (tree (content v))) -> neat v).
Proof.
  induction v as [s|s|w els IH|w ms IH] using jv_ind'; try (split; [constructor|intros _; exact I]); rewrite Forall_forall in IH.
  - cbn [content tree]. rewrite !render_arr, !map_map. cbn [app length]. rewrite !app_length.
    destruct (join_length (fun e => elem_text (Elem [] (tree (content (e_val e))) [])) elem_text els) as [J1 J2].
    { intros e He. unfold elem_text. cbn [e_pre e_val e_post app]. rewrite !app_length. pose proof (proj1 (IH e He)). cbn [length]. lia. }
    split; [lia|]. intro E. apply neat_arr. split; [destruct w; [reflexivity|cbn [length] in E; lia]|]. apply Forall_forall. intros e He.
    assert (E1 : length (elem_text e) = length (elem_text (Elem [] (tree (content (e_val e))) []))) by (apply J2; [lia|exact He]).
    unfold elem_text in E1. cbn [e_pre e_val e_post app] in E1. rewrite !app_length in E1. destruct (IH e He) as [I1 I2]. cbn [length] in E1. unfold neat_e.
    split; [destruct (e_pre e); [reflexivity|cbn [length] in E1; lia]|]. split; [apply I2; lia|]. destruct (e_post e); [reflexivity|cbn [length] in E1; lia].
  - cbn [content tree]. rewrite !render_obj, !map_map. cbn [app length fst snd]. rewrite !app_length.
    destruct (join_length (fun m => mem_text (Mem [] (m_key m) [] [] (tree (content (m_val m))) [])) mem_text ms) as [J1 J2].
    { intros m Hm. unfold mem_text. cbn [m_pre m_key m_mid m_mid2 m_val m_post app]. repeat (rewrite ?app_length; cbn [length]). pose proof (proj1 (IH m Hm)). lia. }
    split; [lia|]. intro E. apply neat_obj. split; [destruct w; [reflexivity|cbn [length] in E; lia]|]. apply Forall_forall. intros m Hm.
    assert (E1 : length (mem_text m) = length (mem_text (Mem [] (m_key m) [] [] (tree (content (m_val m))) []))) by (apply J2; [lia|exact Hm]).
    unfold mem_text in E1. cbn [m_pre m_key m_mid m_mid2 m_val m_post app] in E1. repeat (rewrite ?app_length in E1; cbn [length] in E1). destruct (IH m Hm) as [I1 I2]. unfold neat_m.
    split; [destruct (m_pre m); [reflexivity|cbn [length] in E1; lia]|]. split; [destruct (m_mid m); [reflexivity|cbn [length] in E1; lia]|].
    split; [destruct (m_mid2 m); [reflexivity|cbn [length] in E1; lia]|]. split; [apply I2; lia|]. destruct (m_post m); [reflexivity|cbn [length] in E1; lia].
Qed.
Theorem flat_unique d c : wf_doc d = true -> wf (tree c) = true -> text d = flat c -> d = Doc [] (tree c) [].
Proof.
  intros Hd Hc E. pose proof (content_unique d (plain c) Hd (plain_wf c Hc)) as HC. rewrite plain_text in HC. specialize (HC E). cbn [plain d_val] in HC. rewrite content_tree in HC.
  destruct (strip_shorter (d_val d)) as [S1 S2]. rewrite HC in S1, S2. apply (f_equal (@length N)) in E. unfold text, flat in E. rewrite !app_length in E.
  destruct d as [pr v po]. cbn [d_pre d_val d_post] in *. assert (Hn : neat v) by (apply S2; lia). pose proof (tree_neat v Hn) as T. rewrite HC in T. subst v.
  destruct pr; [|cbn [length] in E; lia]. destruct po; [|cbn [length] in E; lia]. reflexivity.
Qed.

(** ** One call *)
Definition stands (p : parser) (c : jd) : Prop := p_holds counted1 p (plain c).
Lemma stands_follows p c o c' : stands p c -> wf (tree c) = true -> flat_op o -> legal (plain c) o -> p_legal (plain c) o -> meaning o c = Some c' ->
  exists p', p_call o p = PRet p' None /\ stands p' c'.
Proof.
  intros Hp Hw Hf Hl Hpl Hm. destruct (flat_update c o c' Hw Hf Hl Hm) as [E W].
  assert (Hm' : meaning o (content (d_val (plain c))) = Some c') by (cbn [plain d_val]; rewrite content_tree; exact Hm).
  destruct (call_follows counted1 counted1_closed p (plain c) o c' Hp Hl Hpl Hm') as (d' & p' & E1 & E2 & H & M1 & _).
  rewrite plain_text, E in E1. injection E1 as E1. exists p'. split; [exact E2|]. unfold stands, plain. rewrite <- (flat_unique d' c' M1 W (eq_sym E1)). exact H.
Qed.
Lemma obj_members pf ps : d_val (plain (obj pf ps)) = JObj [] (map (fun m => Mem [] (fst m) [] [] (tree (snd m)) []) (mv (tok pf) ps)).
Proof. reflexivity. Qed.
Lemma nokey_tree k (ms : list (bytes * jd)) : ~ In k (map fst ms) -> nokey k (map (fun m => Mem [] (fst m) [] [] (tree (snd m)) []) ms).
Proof. intro H. apply Forall_map, Forall_forall. intros [x y] Hx. cbn. intros ->. apply H. exact (in_map fst _ _ Hx). Qed.
Lemma obj_split pf ps k u : NoDup (map fst ps) -> assoc k ps = Some u ->
  exists l1 m l2, d_val (plain (obj pf ps)) = JObj [] (l1 ++ m :: l2) /\ m_key m = k /\ nokey k l1 /\ nokey k l2.
Proof.
  intros Hn Ha. assert (Hi : In (k, u) ps).
  { clear Hn. induction ps as [|[k' v] ps IH]; [discriminate|]. cbn [assoc] in Ha. destruct (bytes_eqb k' k) eqn:E; [apply bytes_eqb_eq in E; injection Ha as <-; subst; left; reflexivity|right; auto]. }
  destruct (in_split _ _ Hi) as (a & c & ->). rewrite map_app in Hn. cbn [map fst] in Hn. apply NoDup_remove_2 in Hn. rewrite in_app_iff in Hn.
  exists (map (fun m => Mem [] (fst m) [] [] (tree (snd m)) []) (mv (tok pf) a)). eexists. exists (map (fun m => Mem [] (fst m) [] [] (tree (snd m)) []) (mv (tok pf) c)).
  split; [rewrite obj_members, mv_app, map_app; reflexivity|]. split; [reflexivity|]. split; apply nokey_tree; rewrite mv_fst; tauto.
Qed.
Lemma obj_straight pf ps k : straight (d_val (plain (obj pf ps))) [k] = true.
Proof. rewrite obj_members. cbn [straight lonely negb exact_step andb]. destruct (child _ k); reflexivity. Qed.
Lemma obj_in pf ps k u : assoc k ps = Some u -> In k (map m_key (map (fun m => Mem [] (fst m) [] [] (tree (snd m)) []) (mv (tok pf) ps))).
Proof.
  intro H. fold (SpecIter.keys (map (fun m => Mem [] (fst m) [] [] (tree (snd m)) []) (mv (tok pf) ps))). rewrite tree_keys, mv_fst. destruct (in_dec (list_eq_dec N.eq_dec) k (map fst ps)) as [Hi|Hi]; [exact Hi|].
  apply assoc_none in Hi. rewrite Hi in H. discriminate H.
Qed.
Lemma obj_lookup_none pf ps k : assoc k ps = None -> lookup (d_val (plain (obj pf ps))) [k] = None.
Proof.
  intro H. pose proof (obj_lookup pf ps k) as L. rewrite H in L. rewrite <- (content_tree (obj pf ps)), lookup_content in L. cbn [plain d_val]. destruct (lookup _ _); [discriminate L|reflexivity].
Qed.
Lemma tok_leaf pf v : fit pf v -> leaf (tree (tok pf v)) = true /\ hollow (tree (tok pf v)) = true.
Proof. intro H. destruct (tok_simple pf v H) as [(-> & _)|(-> & _)]; split; reflexivity. Qed.
Lemma p_step_fit pf c ps ps' : Forall (fit pf) (map snd ps) -> p_able pf c ps -> p_step c ps = inl ps' -> Forall (fit pf) (map snd ps').
Proof.
  intros H Ha. destruct c as [k v|k v|k v|k|k n]; cbn [p_step step p_able] in *; try contradiction.
  - destruct (assoc k ps); [|discriminate]. intros [= <-]. apply assoc_set_snd; assumption.
  - destruct (assoc k ps); [discriminate|]. intros [= <-]. rewrite map_app. apply Forall_app. split; [exact H|]. constructor; [apply Ha|constructor].
  - destruct (assoc k ps); [|discriminate]. intros [= <-]. rewrite Forall_forall in *. intros x Hx. apply in_map_iff in Hx. destruct Hx as (y & <- & Hy). apply remove_sub in Hy. apply H. exact (in_map snd _ _ Hy).
  - destruct (assoc k ps); [|discriminate]. destruct (assoc n ps); [discriminate|]. intros [= <-]. rewrite rename_snd. exact H.
Qed.

Theorem parser_step pf c ps p : sheet pf ps -> Forall (fit pf) (map snd ps) -> cmd_ok pf c -> p_able pf c ps -> fits (MakeJsonWithMap pf (nonnil ps)) -> stands p (obj pf ps) ->
  match p_step c ps with
  | inl ps' => (exists p', do_p_cmd pf c p = PRet p' None /\ stands p' (obj pf ps')) /\ sheet pf ps'
  | inr e => do_p_cmd pf c p = PRet p (Some e)
  end.
Proof.
  intros Hs Hfit Hc Ha Hf Hp. pose proof (obj_wf pf ps Hs) as Hw. rewrite (made_flat pf ps (proj2 Hs)), <- plain_text in Hf.
  pose proof (sheet_step pf c ps Hs Hc) as S. pose proof (holds_refuses p _ Hp) as (RM & RT & _ & _).
  assert (FO : forall v, render (tree (tok pf v)) = flat (content (tree (tok pf v)))) by (intro v; rewrite content_tree; reflexivity).
  assert (M : forall k, assoc k ps = None -> (forall new, P_Set p new [k] = PRet p (Some (EKeyNotFound k))) /\ (forall n, n <> [] -> P_SetKey p n [k] = PRet p (Some (EKeyNotFound k))) /\
                P_Delete p [k] = PRet p (Some (EKeyNotFound k))).
  { intros k Hk. destruct (RM [k] Hf (obj_lookup_none pf ps k Hk)) as (q0 & x & r & E & _ & _ & R1 & R2 & R3 & _).
    assert (x = k) as -> by (destruct q0 as [|? [|? ?]]; [injection E; auto|discriminate E|discriminate E]). auto. }
  destruct c as [k v|k v|k v|k|k n]; cbn [p_step step do_p_cmd p_able cmd_ok] in *; try contradiction.
  - destruct (assoc k ps) as [u|] eqn:E; [split; [|apply S]|apply M, E]. rewrite <- (proj1 (tok_fit pf v Hc)).
    apply (stands_follows p (obj pf ps) (OSet [k] (tree (tok pf v))) _ Hp Hw (FO v)).
    + split; [discriminate|apply tok_fit, Hc].
    + split; [apply tok_leaf, Ha|]. split; [apply obj_straight|]. exists (tree (tok pf u)). split; [apply flat_lookup; rewrite obj_lookup, E; reflexivity|]. apply tok_leaf. rewrite Forall_forall in Hfit. apply Hfit, (assoc_snd k), E.
    + cbn [meaning]. unfold obj at 1. cbn [d_modify d_child]. rewrite mv_assoc, E. cbn [option_map d_const d_set_child]. rewrite content_tree, mv_set. reflexivity.
  - destruct Hc as (Hk & Hk' & Hv). unfold P_AddKeyValueString. destruct k as [|k0 k1] eqn:Ek; [contradiction|]. rewrite <- Ek in *. clear Ek k0 k1.
    destruct (assoc k ps) as [u|] eqn:E.
    + apply (proj2 RT k [] _ _ (obj_members pf ps) Hk). apply (obj_in pf ps k u E).
    + split; [|apply S]. rewrite <- (proj1 (tok_fit pf v Hv)). apply (stands_follows p (obj pf ps) (OAddKV [] k (tree (tok pf v))) _ Hp Hw (FO v)).
      * split; [apply tok_fit, Hv|]. split; [exact Hk'|]. left. apply obj_absent; assumption.
      * split; [apply tok_leaf, Ha|]. split; [reflexivity|]. split; [exact Hk|]. split; [|intros q0 x u0 Hq; destruct q0; discriminate Hq].
        intros _. split; [reflexivity|]. split; [reflexivity|]. destruct ps; [destruct Ha; contradiction|reflexivity].
      * cbn [meaning d_modify]. unfold obj at 1. cbn [d_add]. rewrite mv_assoc, E. cbn [option_map]. rewrite content_tree. unfold obj. rewrite mv_app. reflexivity.
  - destruct (assoc k ps) as [u|] eqn:E; [split; [|apply S]|apply M, E].
    apply (stands_follows p (obj pf ps) (ODelete [] k) _ Hp Hw I I).
    + split; [apply obj_straight|]. left. destruct (obj_split pf ps k u (proj1 (proj1 Hs)) E) as (l1 & m & l2 & H1 & H2 & H3 & H4). exists [], l1, m, l2. split; [cbn [lookup]; rewrite H1; reflexivity|]. auto.
    + cbn [meaning d_modify]. unfold obj at 1. cbn [d_remove]. rewrite mv_assoc, E. cbn [option_map]. rewrite mv_remove. reflexivity.
  - destruct Hc as [Hn Hn']. destruct (assoc k ps) as [u|] eqn:E; [|apply M; assumption]. destruct (assoc n ps) as [u'|] eqn:En.
    + apply (proj1 RT [] k n [] _ (f_equal Some (obj_members pf ps)) (obj_straight pf ps k) Hn); eapply obj_in; eassumption.
    + split; [|apply S]. apply (stands_follows p (obj pf ps) (OSetKey [] k n) _ Hp Hw I).
      * split; [exact Hn'|]. split; [exact Hn|]. apply obj_absent; assumption.
      * split; [apply obj_straight|]. destruct (obj_split pf ps k u (proj1 (proj1 Hs)) E) as (l1 & m & l2 & H1 & H2 & H3 & H4). exists [], l1, m, l2. split; [cbn [lookup]; rewrite H1; reflexivity|]. auto.
      * cbn [meaning d_modify]. unfold obj at 1. cbn [d_rename]. rewrite !mv_assoc, E, En. cbn [option_map]. rewrite mv_rename. reflexivity.
Qed.

Lemma stands_reads pf ps p : sheet pf ps -> fits (MakeJsonWithMap pf (nonnil ps)) -> stands p (obj pf ps) ->
  p_json p = MakeJsonWithMap pf (nonnil ps) /\ forall k, P_Get p [k] = match assoc k ps with Some v => Ok v | None => Err (EKeyNotFound k) end.
Proof.
  intros Hs Hf Hp. rewrite (made_flat pf ps (proj2 Hs)) in *. rewrite <- plain_text in Hf. destruct (holds_answers _ _ _ Hp) as (A1 & A2 & A3 & A4). rewrite plain_text in A1. split; [exact A1|].
  intro k. destruct (assoc k ps) as [v|] eqn:E.
  - destruct (A2 [k] (tree (tok pf v))) as [G _]; [apply flat_lookup; rewrite obj_lookup, E; reflexivity|discriminate|apply obj_straight|]. rewrite G, bare_shown. f_equal. apply tok_fit. eapply assoc_fit; eassumption.
  - destruct (A4 [k] Hf) as [(t & G)|(q0 & x & r & Eq & G & _)].
    + destruct (A3 [k] t Hf G) as [L _]. contradiction L. apply obj_lookup_none, E.
    + assert (x = k) as -> by (destruct q0 as [|? [|? ?]]; [injection Eq; auto|discriminate Eq|discriminate Eq]). exact G.
Qed.

Theorem parser_history pf cs ps : sheet pf ps -> Forall (fit pf) (map snd ps) -> p_goes pf cs ps ->
  exists p p', Parse (MakeJsonWithMap pf (nonnil ps)) = Ok p /\ p_run_calls pf cs p = Some p' /\
    p_json p' = MakeJsonWithMap pf (nonnil (p_steps cs ps)) /\
    forall k, P_Get p' [k] = match assoc k (p_steps cs ps) with Some v => Ok v | None => Err (EKeyNotFound k) end.
Proof.
  intros Hs Hfit Hg. destruct (parse_holds (plain (obj pf ps)) (plain_wf _ (obj_wf pf ps Hs)) eq_refl) as (p & E & Hp). rewrite plain_text, <- (made_flat pf ps (proj2 Hs)) in E.
  assert (HH : exists p', p_run_calls pf cs p = Some p' /\ stands p' (obj pf (p_steps cs ps)) /\ sheet pf (p_steps cs ps) /\ fits (MakeJsonWithMap pf (nonnil (p_steps cs ps)))).
  { apply (weaken_holds counted counted1 counted_weak) in Hp. fold (stands p (obj pf ps)) in Hp. clear E. revert ps p Hs Hfit Hg Hp.
    induction cs as [|c cs IH]; intros ps p Hs Hfit Hg Hp; cbn [p_run_calls p_steps p_goes] in *; [exists p; auto|]. destruct Hg as (H1 & H2 & H3 & H4).
    pose proof (parser_step pf c ps p Hs Hfit H1 H2 H3 Hp) as S. destruct (p_step c ps) as [ps'|e] eqn:Es.
    - destruct S as [(p' & -> & Hp') Hs']. apply IH; try assumption. eapply p_step_fit; eassumption.
    - rewrite S. apply IH; assumption. }
  destruct HH as (p' & R & Hp' & Hs' & Hf'). exists p, p'. split; [exact E|]. split; [exact R|]. apply stands_reads; assumption.
Qed.
