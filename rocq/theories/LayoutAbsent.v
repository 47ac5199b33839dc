(** Documents of the same content: what is found for paths that do not resolve. *)
From Coq Require Import String Lia.
From Verif Require Import GoStd Json Spec SpecProofs Focus Domains Core CoreProofs Errors Api ApiProofs Updates Ops History SpecIter Iter IterProofs Layout LayoutRead.
From Verif Require SpecFormat FormatProofs CoreSib Below Format.
From Verif Require Import SpecLayout IterObj IterMisc.

Local Open Scope N_scope.
Notation strip := SpecFormat.strip.

(** ** Nothing of this looks at blanks *)
Definition strip_item (i : bytes * jv) : bytes * jv := (fst i, strip (snd i)).
Definition strip_out (o : outcome) : outcome := match o with Stray v => Stray (strip v) | o => o end.

Lemma calm_strip v : Domains.calm (strip v) = Domains.calm v.
Proof.
  induction v as [s|s|w els IH|w ms IH] using jv_ind'; cbn [SpecFormat.strip Domains.calm]; try reflexivity.
  - induction IH as [|e els He _ IH']; [reflexivity|]. cbn [map forallb]. destruct e as [a v c]. cbn [e_val] in *. rewrite He, IH'. reflexivity.
  - induction IH as [|m ms He _ IH']; [reflexivity|]. cbn [map forallb]. destruct m as [a k c d v e]. cbn [m_val m_key] in *. rewrite He, IH'. reflexivity.
Qed.
Lemma tame_strip v : tame (strip v) = tame v.
Proof. unfold tame. pose proof (calm_strip v). destruct v; [reflexivity|reflexivity|exact H|exact H]. Qed.
Lemma thin_strip v : thin (strip v) = thin v.
Proof. destruct v as [s|s|w [|e [|e' els]]|w [|m [|m' ms]]]; reflexivity. Qed.
Lemma tames_strip els : forallb (fun e => tame (e_val e)) (map (fun e => Elem [] (strip (e_val e)) []) els) = forallb (fun e => tame (e_val e)) els.
Proof. induction els as [|e els IH]; [reflexivity|]. cbn [map forallb e_val]. rewrite tame_strip, IH. reflexivity. Qed.
Notation bare_mem := (fun m => Mem [] (m_key m) [] [] (strip (m_val m)) []).
Lemma find_strip x ms : find_mem x (map bare_mem ms) = option_map bare_mem (find_mem x ms).
Proof. unfold find_mem. induction ms as [|m ms IH]; [reflexivity|]. cbn [map find m_key]. destruct (bytes_eqb (m_key m) x); [reflexivity|exact IH]. Qed.
Lemma tl_map {A B} (f : A -> B) l : tl (map f l) = map f (tl l).
Proof. destruct l; reflexivity. Qed.
Lemma stray_strip x l : forall jump, stray jump x (map strip_item l) = strip_out (stray jump x l).
Proof.
  induction l as [|[k v] l IH]; intro jump; [reflexivity|]. cbn [map stray strip_item fst snd].
  destruct (negb jump && negb (no_brace k))%bool; [reflexivity|].
  destruct v as [s|s|w els|w ms]; cbn [SpecFormat.strip].
  - apply IH.
  - destruct (jump || no_brace s)%bool; [apply IH|reflexivity].
  - assert (E : (if jump then tl (map (fun e => Elem [] (strip (e_val e)) []) els) else map (fun e => Elem [] (strip (e_val e)) []) els) = map (fun e => Elem [] (strip (e_val e)) []) (if jump then tl els else els)) by (destruct jump; [apply tl_map|reflexivity]).
    rewrite E, tames_strip. pose proof (thin_strip (JArr w els)) as T. cbn [SpecFormat.strip] in T. rewrite T. destruct (forallb _ _); [apply IH|reflexivity].
  - assert (E : (if jump then tl (map bare_mem ms) else map bare_mem ms) = map bare_mem (if jump then tl ms else ms)) by (destruct jump; [apply tl_map|reflexivity]).
    rewrite E, find_strip. destruct (find_mem x (if jump then tl ms else ms)) as [m|]; [reflexivity|]. cbn [option_map].
    assert (F : filled_obj (map bare_mem ms) = filled_obj ms) by (destruct ms; reflexivity). rewrite F. apply IH.
Qed.
Lemma after_strip x ms : after_key x (map bare_mem ms) = map bare_mem (after_key x ms).
Proof. induction ms as [|m ms IH]; [reflexivity|]. cbn [map after_key m_key]. destruct (bytes_eqb (m_key m) x); [reflexivity|exact IH]. Qed.
Lemma followers_strip t q x : followers (strip t) q x = map strip_item (followers t q x).
Proof.
  unfold followers. rewrite lookup_strip. destruct (lookup t q) as [[s|s|w els|w ms]|]; cbn [option_map SpecFormat.strip]; try reflexivity.
  - destruct (atoi x) as [z|]; [|reflexivity]. rewrite skipn_map, !map_map. reflexivity.
  - rewrite after_strip, !map_map. reflexivity.
Qed.
Lemma stray_at_strip t q x : stray_at (strip t) q x = strip_out (stray_at t q x).
Proof.
  unfold stray_at. rewrite lookup_strip. destruct (lookup t q) as [[s|s|w els|w ms]|]; cbn [option_map SpecFormat.strip]; try reflexivity.
  destruct (rev q) as [|y r].
  - assert (E : last_tame (map bare_mem ms) = last_tame ms) by (unfold last_tame; rewrite <- map_rev; destruct (rev ms); [reflexivity|apply tame_strip]).
    rewrite E. destruct (last_tame ms); reflexivity.
  - assert (F : filled_obj (map bare_mem ms) = filled_obj ms) by (destruct ms; reflexivity). rewrite F, followers_strip. apply stray_strip.
Qed.
Lemma next_strip l : next_container (map strip_item l) = option_map (option_map strip) (next_container l).
Proof.
  induction l as [|[k v] l IH]; [reflexivity|]. cbn [map next_container strip_item fst snd]. destruct (no_brace k); [|reflexivity].
  destruct v as [s|s|w els|w ms]; cbn [SpecFormat.strip]; try reflexivity; [exact IH|]. destruct (no_brace s); [exact IH|reflexivity].
Qed.
Lemma bad_step_strip els y : bad_step (map (fun e => Elem [] (strip (e_val e)) []) els) y = bad_step els y.
Proof. unfold bad_step. destruct (atoi y) as [z|]; [|reflexivity]. rewrite nth_z_map. destruct (nth_z els z); reflexivity. Qed.
Lemma into_strip c p : into (strip c) p = strip_out (into c p).
Proof.
  unfold into. rewrite lookup_strip. destruct (lookup c p) as [v|]; [reflexivity|]. cbn [option_map].
  destruct c as [s|s|w els|w ms]; cbn [SpecFormat.strip]; try reflexivity. destruct p as [|y p]; [reflexivity|]. rewrite bad_step_strip. destruct (bad_step els y); reflexivity.
Qed.
Lemma below_at_strip t q x p : below_at (strip t) q x p = strip_out (below_at t q x p).
Proof.
  unfold below_at. rewrite lookup_strip. destruct (lookup t (q ++ [x])) as [v|]; cbn [option_map]; [|reflexivity].
  rewrite followers_strip. change ((([] : bytes), strip v) :: map strip_item (followers t q x)) with (map strip_item (([], v) :: followers t q x)).
  rewrite next_strip. destruct (next_container (([], v) :: followers t q x)) as [[c|]|]; cbn [option_map]; [apply into_strip| |reflexivity].
  destruct (rev q) as [|i r]; [reflexivity|]. rewrite followers_strip, next_strip.
  destruct (next_container (followers t (rev r) i)) as [[c|]|]; cbn [option_map]; try reflexivity.
  destruct c as [s|s|w els|w ms]; try (apply (into_strip)).
  cbn [SpecFormat.strip]. destruct p as [|y rest]; [reflexivity|].
  match goal with |- context [stray false y ?l] => replace l with (map strip_item (map (fun m : mem jv => (m_key m, m_val m)) ms)) by (rewrite !map_map; reflexivity) end. rewrite stray_strip.
  destruct (stray false y (map (fun m : mem jv => (m_key m, m_val m)) ms)); destruct rest; reflexivity.
Qed.

(** ** Trees of the same content *)
Lemma same_out o o' : strip_out o = strip_out o' ->
  match o, o' with Nowhere, Nowhere | Unclear, Unclear => True | Stray v, Stray v' => content v = content v' | _, _ => False end.
Proof.
  destruct o as [|v|], o' as [|v'|]; cbn; try discriminate; auto. intro H. injection H as H.
  rewrite <- (FormatProofs.strip_content v), <- (FormatProofs.strip_content v'), H. reflexivity.
Qed.
Lemma stray_at_same t t' q x : content t = content t' -> strip_out (stray_at t q x) = strip_out (stray_at t' q x).
Proof. intro H. rewrite <- !stray_at_strip, (FormatProofs.strip_of_content _ _ H). reflexivity. Qed.
Lemma below_at_same t t' q x p : content t = content t' -> strip_out (below_at t q x p) = strip_out (below_at t' q x p).
Proof. intro H. rewrite <- !below_at_strip, (FormatProofs.strip_of_content _ _ H). reflexivity. Qed.
Lemma lookup_same t t' p v : content t = content t' -> lookup t p = Some v -> exists v', lookup t' p = Some v' /\ content v = content v'.
Proof.
  intros Hc Hl. pose proof (lookup_content t p) as E. rewrite Hc, lookup_content, Hl in E. cbn [option_map] in E.
  destruct (lookup t' p) as [v'|]; [|discriminate]. injection E as E. exists v'. auto.
Qed.
Lemma object_same t t' p w ms : content t = content t' -> lookup t p = Some (JObj w ms) ->
  exists w' ms', lookup t' p = Some (JObj w' ms') /\ content (JObj w ms) = content (JObj w' ms').
Proof. intros Hc Hl. destruct (lookup_same _ _ _ _ Hc Hl) as (v' & Hl' & E). destruct v' as [s|s|w' els'|w' ms']; try discriminate E. eauto. Qed.
Lemma find_same x w ms w' ms' : content (JObj w ms) = content (JObj w' ms') -> find_mem x ms = None -> find_mem x ms' = None.
Proof.
  intros E H. apply FormatProofs.strip_of_content in E. cbn [SpecFormat.strip] in E. injection E as E.
  pose proof (find_strip x ms) as A. pose proof (find_strip x ms') as B. rewrite E, H in A. rewrite A in B. destruct (find_mem x ms'); [discriminate|reflexivity].
Qed.

Theorem absent_same d d' q x w ms : wf_doc d = true -> wf_doc d' = true -> content (d_val d) = content (d_val d') ->
  lookup (d_val d) q = Some (JObj w ms) -> find_mem x ms = None -> stray_at (d_val d) q x <> Unclear ->
  (Get (text d) (q ++ [x]) = Err (EKeyNotFound x) /\ Get (text d') (q ++ [x]) = Err (EKeyNotFound x)) \/
  exists u u', Get (text d) (q ++ [x]) = Ok (bare u) /\ Get (text d') (q ++ [x]) = Ok (bare u') /\ content u = content u'.
Proof.
  intros Hw Hw' Hc Hl Hf Hn. destruct (object_same _ _ _ _ _ Hc Hl) as (w' & ms' & Hl' & E).
  pose proof (get_absent d q x w ms Hw Hl Hf) as G. pose proof (get_absent d' q x w' ms' Hw' Hl' (find_same _ _ _ _ _ E Hf)) as G'.
  pose proof (same_out _ _ (stray_at_same _ _ q x Hc)) as S.
  destruct (stray_at (d_val d) q x) as [|u|], (stray_at (d_val d') q x) as [|u'|]; try contradiction; [left; auto|right; eauto].
Qed.
Theorem below_value_same d d' q x p v w ms : wf_doc d = true -> wf_doc d' = true -> content (d_val d) = content (d_val d') ->
  lookup (d_val d) q = Some (JObj w ms) -> lookup (d_val d) (q ++ [x]) = Some v -> container v = false -> p <> [] -> below_at (d_val d) q x p <> Unclear ->
  (exists e e', Get (text d) (q ++ x :: p) = Err e /\ Get (text d') (q ++ x :: p) = Err e') \/
  exists u u', Get (text d) (q ++ x :: p) = Ok (bare u) /\ Get (text d') (q ++ x :: p) = Ok (bare u') /\ content u = content u'.
Proof.
  intros Hw Hw' Hc Hl Hx Hv Hp Hn. destruct (object_same _ _ _ _ _ Hc Hl) as (w' & ms' & Hl' & E). destruct (lookup_same _ _ _ _ Hc Hx) as (v' & Hx' & Ev).
  rewrite (same_kind _ _ Ev) in Hv. pose proof Hv as Hv'. rewrite <- (same_kind _ _ Ev) in Hv.
  pose proof (get_below_at d q x p v w ms Hw Hl Hx Hv Hp) as G. pose proof (get_below_at d' q x p v' w' ms' Hw' Hl' Hx' Hv' Hp) as G'.
  pose proof (same_out _ _ (below_at_same _ _ q x p Hc)) as S.
  destruct (below_at (d_val d) q x p) as [|u|], (below_at (d_val d') q x p) as [|u'|]; try contradiction; [|right; eauto].
  left. destruct G as [e G], G' as [e' G']. exists e, e'. auto.
Qed.
Theorem bad_step_same d d' q x rest w els : wf_doc d = true -> wf_doc d' = true -> content (d_val d) = content (d_val d') ->
  lookup (d_val d) q = Some (JArr w els) -> bad_step els x = true -> exists e, Get (text d) (q ++ x :: rest) = Err e /\ Get (text d') (q ++ x :: rest) = Err e.
Proof.
  intros Hw Hw' Hc Hl Hb. destruct (lookup_same _ _ _ _ Hc Hl) as (v' & Hl' & E). destruct v' as [s|s|w' els'|w' ms']; try discriminate E.
  apply FormatProofs.strip_of_content in E. cbn [SpecFormat.strip] in E. injection E as E.
  assert (Hb' : bad_step els' x = true) by (rewrite <- bad_step_strip, <- E, bad_step_strip; exact Hb).
  destruct (get_bad_step d q x rest w els Hw Hl) as [G1 G2]. destruct (get_bad_step d' q x rest w' els' Hw' Hl') as [G1' G2'].
  unfold bad_step in Hb, Hb'. destruct (atoi x) as [z|] eqn:Ez; [|exists EIndexExpected; auto].
  destruct (nth_z els z) eqn:N1; [discriminate|]. destruct (nth_z els' z) eqn:N2; [discriminate|].
  rewrite (G2 z eq_refl N1), (G2' z eq_refl N2). eexists. split; [reflexivity|]. destruct els, els'; try discriminate E; destruct rest; reflexivity.
Qed.

(** ** Updates *)
Lemma free_same t t' p k : content t = content t' -> free_key t p k -> free_key t' p k.
Proof.
  intros Hc (w & ms & Hl & Hf & Hs). destruct (object_same _ _ _ _ _ Hc Hl) as (w' & ms' & Hl' & E). exists w', ms'. split; [exact Hl'|]. split; [exact (find_same _ _ _ _ _ E Hf)|].
  pose proof (same_out _ _ (stray_at_same _ _ p k Hc)) as S. rewrite Hs in S. destruct (stray_at t' p k); [reflexivity|contradiction|contradiction].
Qed.
Lemma settled_same t t' o : content t = content t' -> settled t o -> settled t' o.
Proof.
  intros Hc. destruct o as [p v|q x|p v|p k v|p z v|q x k|p k v]; cbn [settled]; auto.
  - intros (H1 & H2 & [H|[w H]]); repeat (split; [assumption|]); [left; exact (free_same _ _ _ _ Hc H)|right].
    destruct (object_same _ _ _ _ _ Hc H) as (w' & ms' & Hl' & E). destruct ms'; [eauto|discriminate E].
  - intros (H1 & H2 & H). repeat (split; [assumption|]). exact (free_same _ _ _ _ Hc H).
  - intros (H1 & H2 & [H|H]); repeat (split; [assumption|]); [left|right; exact (free_same _ _ _ _ Hc H)].
    destruct (lookup t (p ++ [k])) as [v0|] eqn:El; [|congruence]. destruct (lookup_same _ _ _ _ Hc El) as (v' & Hl' & _). congruence.
Qed.
Lemma settled_legal d o : settled (d_val d) o -> legal d o.
Proof.
  assert (F : forall p k, free_key (d_val d) p k -> seen_absent d p k) by (intros p k (w & ms & Hl & Hf & Hs); exists w, ms; auto).
  destruct o as [p v|q x|p v|p k v|p z v|q x k|p k v]; cbn [settled legal]; auto.
  - intros (H1 & H2 & [H|H]); auto.
  - contradiction.
  - intros (H1 & H2 & H). auto.
  - intros (H1 & H2 & [H|H]); repeat (split; [assumption|]); [left|right; auto]. rewrite lookup_content. destruct (lookup (d_val d) (p ++ [k])); [discriminate|congruence].
Qed.
Theorem settled_history c ops c' : settled_from c ops c' -> forall d d', wf_doc d = true -> wf_doc d' = true -> content (d_val d) = c -> content (d_val d') = c ->
  exists e e', run ops (text d) = Some (text e) /\ run ops (text d') = Some (text e') /\
    wf_doc e = true /\ wf_doc e' = true /\ content (d_val e) = c' /\ content (d_val e') = c' /\ Format.Flatten (text e) = Format.Flatten (text e').
Proof.
  induction 1 as [c|c o ops c1 c2 t Ht Hs Hm _ IH]; intros d d' Hw Hw' Hc Hc'; cbn [run].
  - exists d, d'. repeat (split; [first [assumption|reflexivity]|]). apply FormatProofs.flatten_same; congruence.
  - assert (L : legal d o) by (apply settled_legal, (settled_same t); congruence). assert (L' : legal d' o) by (apply settled_legal, (settled_same t); congruence).
    destruct (op_same_content d d' o c1 Hw Hw' ltac:(congruence) L L' ltac:(rewrite Hc; exact Hm)) as (e & e' & R & R' & W & W' & E & E' & _).
    rewrite R, R'. exact (IH e e' W W' E E').
Qed.

(** ** Listings of values *)
Theorem values_same d d' p w ms w' ms' : wf_doc d = true -> wf_doc d' = true -> content (d_val d) = content (d_val d') ->
  lookup (d_val d) p = Some (JObj w ms) -> lookup (d_val d') p = Some (JObj w' ms') -> ms <> [] -> Forall tight_m ms -> Forall tight_m ms' ->
  exists us us', map content us = map content us' /\
    GetValues (text d) p = Ok (map bare us) /\ GetValues (text d') p = Ok (map bare us') /\
    GetKeysValues (text d) p = Ok (keys ms, map bare us) /\ GetKeysValues (text d') p = Ok (keys ms, map bare us').
Proof.
  intros Hw Hw' Hc Hl Hl' Hne Ht Ht'. destruct (object_same _ _ _ _ _ Hc Hl) as (w1 & ms1 & Hl1 & E). rewrite Hl1 in Hl'. injection Hl' as -> ->.
  assert (Hne' : ms' <> []) by (intros ->; destruct ms; [congruence|discriminate E]).
  cbn [content] in E. injection E as E.
  assert (Ek : keys ms = keys ms' /\ map (fun m : mem jv => content (m_val m)) ms = map (fun m : mem jv => content (m_val m)) ms').
  { unfold keys. clear - E. revert ms' E. induction ms as [|m ms IH]; intros [|m' ms'] E; try discriminate; [auto|]. cbn [map] in *. injection E as E1 E2 E3. destruct (IH _ E3) as [A B]. split; congruence. }
  destruct Ek as [Ek Ev]. exists (map m_val ms), (map m_val ms'). rewrite !map_map.
  rewrite (get_values d p w ms Hw Hl Hne Ht), (get_values d' p w' ms' Hw' Hl1 Hne' Ht'), (get_keys_values d p w ms Hw Hl Hne Ht), (get_keys_values d' p w' ms' Hw' Hl1 Hne' Ht').
  unfold values. rewrite Ek. auto.
Qed.
