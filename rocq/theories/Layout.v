(** Insignificant whitespace: documents that differ in nothing else are read and changed alike. *)
From Coq Require Import String.
From Verif Require Import GoStd Json Spec SpecProofs Focus Domains Core Skip CoreProofs Errors Api ApiProofs Updates Ops History SpecFormat Format FormatProofs SpecIter Iter IterProofs IterObj.

Local Open Scope N_scope.

Lemma same_kind v v' : content v = content v' -> container v = container v'.
Proof. destruct v, v'; cbn; congruence. Qed.
Lemma same_bare v v' : content v = content v' -> container v = false -> bare v = bare v'.
Proof. destruct v, v'; cbn; congruence. Qed.
Lemma bare_container v : container v = true -> bare v = render v.
Proof. destruct v; cbn [container]; try discriminate; reflexivity. Qed.
Lemma flatten_value v : wf v = true -> Flatten (render v) = render (strip v).
Proof.
  intro H. pose proof (flatten_doc (Doc [] v [])) as F. unfold text, wf_doc in F. cbn [d_pre d_val d_post] in F.
  rewrite H, app_nil_r in F. exact (F eq_refl).
Qed.
Lemma lookup_wf d p v : wf_doc d = true -> lookup (d_val d) p = Some v -> wf v = true.
Proof. intros Hw Hl. apply wf_doc_val in Hw. destruct (lookup_focus _ _ _ Hl) as (pre & post & F). exact (focus_wf _ _ _ _ _ F Hw). Qed.

Theorem get_same_content d d' p v : wf_doc d = true -> wf_doc d' = true -> content (d_val d) = content (d_val d') ->
  p <> [] -> lookup (d_val d) p = Some v ->
  exists r r', Get (text d) p = Ok r /\ Get (text d') p = Ok r' /\ if container v then Flatten r = Flatten r' else r = r'.
Proof.
  intros Hw Hw' Hc Hp Hl. pose proof (lookup_content (d_val d) p) as E. rewrite Hc, lookup_content, Hl in E. cbn [option_map] in E.
  destruct (lookup (d_val d') p) as [v'|] eqn:Hl'; [|discriminate]. injection E as E.
  exists (bare v), (bare v'). rewrite (get_present d p v Hw Hp Hl), (get_present d' p v' Hw' Hp Hl'). split; [reflexivity|]. split; [reflexivity|].
  destruct (container v) eqn:Ec.
  - rewrite !bare_container by (rewrite ?(same_kind _ _ E); exact Ec).
    rewrite (flatten_value v (lookup_wf _ _ _ Hw Hl)), (flatten_value v' (lookup_wf _ _ _ Hw' Hl')), (strip_of_content _ _ E). reflexivity.
  - symmetry. apply same_bare; [exact E|]. rewrite (same_kind _ _ E). exact Ec.
Qed.

Lemma child_strip v x : child (strip v) x = option_map strip (child v x).
Proof.
  destruct v as [s|s|w els|w ms]; cbn [strip child]; try reflexivity.
  - destruct (atoi x) as [z|]; [|reflexivity]. rewrite nth_z_map. destruct (nth_z els z); reflexivity.
  - induction ms as [|m ms IH]; [reflexivity|]. unfold find_mem in *. cbn [map find]. cbn [m_key].
    destruct (bytes_eqb (m_key m) x); [reflexivity|exact IH].
Qed.
Lemma lookup_strip p : forall v, lookup (strip v) p = option_map strip (lookup v p).
Proof. induction p as [|x p IH]; intro v; cbn [lookup]; [reflexivity|]. rewrite child_strip. destruct (child v x); cbn; [apply IH|reflexivity]. Qed.

Theorem get_flat d p v : wf_doc d = true -> p <> [] -> lookup (d_val d) p = Some v ->
  Get (Flatten (text d)) p = Ok (if container v then Flatten (render v) else bare v).
Proof.
  intros Hw Hp Hl. rewrite flatten_doc by exact Hw.
  assert (Hw' : wf_doc (Doc [] (strip (d_val d)) []) = true).
  { unfold wf_doc. cbn [d_pre d_val d_post]. rewrite strip_wf by (apply wf_doc_val; exact Hw). reflexivity. }
  pose proof (get_present _ p (strip v) Hw' Hp) as G. cbn [d_val] in G. rewrite lookup_strip, Hl in G. specialize (G eq_refl).
  unfold text in G. cbn [d_pre d_val d_post app] in G. rewrite app_nil_r in G. rewrite G. f_equal.
  destruct (container v) eqn:Ec.
  - rewrite (flatten_value v (lookup_wf _ _ _ Hw Hl)).
    apply bare_container. rewrite <- Ec. apply same_kind. apply strip_content.
  - destruct v; try discriminate Ec; reflexivity.
Qed.

(** Calls that are in the domain on both documents. *)
Theorem op_same_content d d' o c : wf_doc d = true -> wf_doc d' = true -> content (d_val d) = content (d_val d') ->
  legal d o -> legal d' o -> meaning o (content (d_val d)) = Some c ->
  exists e e', call o (text d) = Done (text e) /\ call o (text d') = Done (text e') /\
    wf_doc e = true /\ wf_doc e' = true /\ content (d_val e) = c /\ content (d_val e') = c /\ Flatten (text e) = Flatten (text e').
Proof.
  intros Hw Hw' Hc L L' M. destruct (call_ok d o c Hw L M) as (e & R & W & _ & _ & E).
  rewrite Hc in M. destruct (call_ok d' o c Hw' L' M) as (e' & R' & W' & _ & _ & E').
  exists e, e'. repeat (split; [assumption|]). apply flatten_same; congruence.
Qed.

(** Histories of Set, Delete and Add, with operations that do not apply left out by the caller. *)
Theorem plain_same_content ops : forall d d' c, wf_doc d = true -> wf_doc d' = true -> content (d_val d) = content (d_val d') ->
  Forall plain_op ops -> meanings ops (content (d_val d)) = Some c ->
  exists e e', run ops (text d) = Some (text e) /\ run ops (text d') = Some (text e') /\
    wf_doc e = true /\ wf_doc e' = true /\ content (d_val e) = c /\ content (d_val e') = c /\ Flatten (text e) = Flatten (text e').
Proof.
  induction ops as [|o ops IH]; intros d d' c Hw Hw' Hc Hp M; cbn [meanings run] in *.
  - exists d, d'. injection M as <-. repeat (split; [first [assumption|reflexivity|congruence]|]). apply flatten_same; assumption.
  - inversion Hp as [|? ? Ho Hops]; subst. destruct (meaning o (content (d_val d))) as [c1|] eqn:M1; [|discriminate].
    assert (L : forall d, legal d o) by (intro e; destruct o; cbn in *; tauto).
    destruct (op_same_content d d' o c1 Hw Hw' Hc (L d) (L d') M1) as (e & e' & R & R' & W & W' & E & E' & _).
    rewrite R, R'. apply (IH e e'); try assumption; congruence.
Qed.

(** Iteration and listing. *)
Definition record (s : list bytes) (x : bytes) : list bytes * (bool * option err) := (s ++ [x], (true, None)).
Lemma visit_record xs : forall s, visit record xs s = (s ++ xs, None).
Proof. induction xs as [|x xs IH]; intro s; cbn; [rewrite app_nil_r; reflexivity|]. rewrite IH, <- app_assoc. reflexivity. Qed.

Definition same_item (v : jv) (x x' : bytes) : Prop := if container v then Flatten x = Flatten x' else x = x'.
Lemma same_items v v' : wf v = true -> wf v' = true -> content v = content v' -> same_item v (bare v) (bare v').
Proof.
  intros Hw Hw' E. unfold same_item. destruct (container v) eqn:Ec; [|apply same_bare; assumption].
  rewrite !bare_container by (rewrite <- ?(same_kind _ _ E); exact Ec). rewrite !flatten_value by assumption.
  rewrite (strip_of_content _ _ E). reflexivity.
Qed.

Theorem iterate_same_content d d' p w els : wf_doc d = true -> wf_doc d' = true -> content (d_val d) = content (d_val d') ->
  lookup (d_val d) p = Some (JArr w els) -> els <> [] ->
  exists xs xs', IterateArray (text d) record p [] = IDone xs None /\ IterateArray (text d') record p [] = IDone xs' None /\
    length xs = length els /\ length xs' = length els /\
    forall n e, nth_error els n = Some e -> exists x x', nth_error xs n = Some x /\ nth_error xs' n = Some x' /\ same_item (e_val e) x x'.
Proof.
  intros Hw Hw' Hc Hl Hne. pose proof (lookup_content (d_val d) p) as E. rewrite Hc, lookup_content, Hl in E. cbn [option_map] in E.
  destruct (lookup (d_val d') p) as [v'|] eqn:Hl'; [|discriminate]. injection E as E.
  destruct v' as [s|s|w' els'|w' ms']; try discriminate E. cbn [content] in E. injection E as E.
  assert (Hne' : els' <> []) by (intros ->; destruct els; [congruence|discriminate]).
  rewrite (iterate_array record d p w els [] Hw Hl Hne), (iterate_array record d' p w' els' [] Hw' Hl' Hne').
  rewrite !visit_record. exists (items els), (items els').
  assert (Len : length els' = length els) by (rewrite <- (map_length (fun e => content (e_val e)) els'), E, map_length; reflexivity).
  unfold items. rewrite !map_length. repeat (split; [reflexivity || exact Len|]).
  intros n e Hn. destruct (nth_error els' n) as [e'|] eqn:Hn'.
  2:{ exfalso. apply nth_error_None in Hn'. assert (nth_error els n <> None) as Hx by congruence. apply nth_error_Some in Hx. lia. }
  exists (bare (e_val e)), (bare (e_val e')).
  split; [exact (map_nth_error _ n els Hn)|]. split; [exact (map_nth_error _ n els' Hn')|].
  pose proof (lookup_wf _ _ _ Hw Hl) as W. pose proof (lookup_wf _ _ _ Hw' Hl') as W'. rewrite wf_arr in W, W'.
  apply andb_true_iff in W, W'. destruct W as [_ W], W' as [_ W'].
  apply same_items.
  - rewrite forallb_forall in W. apply nth_error_In in Hn. apply W in Hn. unfold elem_ok in Hn. nbool. assumption.
  - rewrite forallb_forall in W'. apply nth_error_In in Hn'. apply W' in Hn'. unfold elem_ok in Hn'. nbool. assumption.
  - pose proof (map_nth_error (fun e => content (e_val e)) n els Hn) as A.
    pose proof (map_nth_error (fun e => content (e_val e)) n els' Hn') as B. rewrite E in B. cbn beta in *. congruence.
Qed.

Theorem keys_same_content d d' p w ms : wf_doc d = true -> wf_doc d' = true -> content (d_val d) = content (d_val d') ->
  lookup (d_val d) p = Some (JObj w ms) -> ms <> [] ->
  GetKeys (text d) p = Ok (keys ms) /\ GetKeys (text d') p = Ok (keys ms).
Proof.
  intros Hw Hw' Hc Hl Hne. pose proof (lookup_content (d_val d) p) as E. rewrite Hc, lookup_content, Hl in E. cbn [option_map] in E.
  destruct (lookup (d_val d') p) as [v'|] eqn:Hl'; [|discriminate]. injection E as E.
  destruct v' as [s|s|w' els'|w' ms']; try discriminate E. cbn [content] in E. injection E as E.
  assert (Hne' : ms' <> []) by (intros ->; destruct ms; [congruence|discriminate]).
  assert (K : forall d w ms, wf_doc d = true -> lookup (d_val d) p = Some (JObj w ms) -> ms <> [] -> GetKeys (text d) p = Ok (keys ms)).
  { clear. intros d w ms Hw Hl Hne. rewrite (get_keys d p w ms Hw Hl). destruct (bytes_eqb (text d) (b "{}")) eqn:Eb; [|reflexivity].
    exfalso. apply bytes_eqb_eq in Eb. destruct (lookup_focus _ _ _ Hl) as (pre & post & Hf).
    rewrite (text_focus _ _ _ _ _ Hf), render_obj in Eb. destruct ms as [|m ms]; [congruence|].
    apply (f_equal (@length N)) in Eb. revert Eb. cbn [map].
    assert (Hj : forall x r, (length x <= length (join (x :: r)))%nat) by (intros x [|y r]; cbn [join]; len).
    specialize (Hj (mem_text m) (map mem_text ms)). unfold mem_text in Hj at 1. revert Hj.
    generalize (join (mem_text m :: map mem_text ms)) as j. intros j Hj Eb. cbn in Eb. repeat (rewrite ?app_length in *; cbn [length] in * ). lia. }
  rewrite (K d w ms Hw Hl Hne), (K d' w' ms' Hw' Hl' Hne'). split; [reflexivity|]. f_equal.
  unfold keys. apply (f_equal (map fst)) in E. rewrite !map_map in E. cbn [fst] in E. exact E.
Qed.
