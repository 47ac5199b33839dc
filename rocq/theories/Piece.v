(** What is answered at a value does not depend on where it stands, and a piece can be worked on by itself (C76). *)
From Coq Require Import String Lia.
From Verif Require Import GoStd Json Spec SpecProofs Focus Domains Core Skip CoreProofs Errors Api ApiProofs Updates SpecIter SpecList Iter IterProofs IterObj IterMisc Split ListExact Layout LayoutRead Ops History Laws SpecPiece.

Local Open Scope N_scope.

(** ** Readers *)
Theorem readers_at d d' p p' v : wf_doc d = true -> wf_doc d' = true -> p <> [] -> p' <> [] ->
  lookup (d_val d) p = Some v -> lookup (d_val d') p' = Some v ->
  Get (text d) p = Get (text d') p' /\ GetString (text d) p = GetString (text d') p' /\
  GetInt (text d) p = GetInt (text d') p' /\ GetBool (text d) p = GetBool (text d') p' /\
  GetStringArray (text d) p = GetStringArray (text d') p' /\ GetIntArray (text d) p = GetIntArray (text d') p' /\
  GetBoolArray (text d) p = GetBoolArray (text d') p' /\
  forall F (pf : bytes -> option F), GetFloat pf (text d) p = GetFloat pf (text d') p' /\ GetFloatArray pf (text d) p = GetFloatArray pf (text d') p'.
Proof.
  intros Hw Hw' Hp Hp' Hl Hl'. assert (G : Get (text d) p = Get (text d') p') by (rewrite (get_present d p v Hw Hp Hl), (get_present d' p' v Hw' Hp' Hl'); reflexivity).
  assert (S : GetString (text d) p = GetString (text d') p') by (unfold GetString; rewrite G; reflexivity).
  destruct (array_via_text d p v Hw Hp Hl) as (A1 & A2 & A3 & A4). destruct (array_via_text d' p' v Hw' Hp' Hl') as (B1 & B2 & B3 & B4).
  split; [exact G|]. split; [exact S|]. split; [unfold GetInt; rewrite S; reflexivity|]. split; [unfold GetBool; rewrite S; reflexivity|].
  split; [rewrite A1, B1; reflexivity|]. split; [rewrite A2, B2; reflexivity|]. split; [rewrite A3, B3; reflexivity|].
  intros F pf. split; [unfold GetFloat; rewrite S; reflexivity|]. rewrite A4, B4. reflexivity.
Qed.
Theorem types_at d d' p p' v : wf_doc d = true -> wf_doc d' = true ->
  lookup (d_val d) p = Some v -> lookup (d_val d') p' = Some v ->
  IsArray (text d) p = IsArray (text d') p' /\ IsObject (text d) p = IsObject (text d') p' /\ IsValue (text d) p = IsValue (text d') p'.
Proof.
  intros Hw Hw' Hl Hl'. rewrite (is_array d p v Hw Hl), (is_array d' p' v Hw' Hl'), (is_object d p v Hw Hl), (is_object d' p' v Hw' Hl'),
    (is_value d p v Hw Hl), (is_value d' p' v Hw' Hl'). auto.
Qed.
Lemma below_long d p v : wf_doc d = true -> p <> [] -> lookup (d_val d) p = Some v -> (3 <= length (text d))%nat.
Proof.
  intros Hw Hp Hl. destruct (lookup_focus _ _ _ Hl) as (pre & post & Hf). rewrite (text_focus _ _ _ _ _ Hf).
  assert (L : (1 <= length pre /\ 1 <= length post)%nat).
  { inversion Hf; subst; [congruence|..]; unfold arr_pre, arr_post, obj_pre, obj_kpre, obj_post; cbn [app length]; rewrite !app_length; cbn [length]; lia. }
  destruct (render_cons v (lookup_wf _ _ _ Hw Hl)) as (c & r & -> & _). rewrite !app_length. cbn [length]. lia.
Qed.
Lemma long_text d : (3 <= length (text d))%nat -> bytes_eqb (text d) (b "{}") = false /\ bytes_eqb (text d) (b "[]") = false.
Proof. intro H. split; apply bytes_eqb_neq; intro E; rewrite E in H; cbn in H; lia. Qed.
Theorem lists_at d d' p p' v : wf_doc d = true -> wf_doc d' = true -> p <> [] -> p' <> [] ->
  lookup (d_val d) p = Some v -> lookup (d_val d') p' = Some v ->
  (forall pf, GetType pf (text d) p = GetType pf (text d') p') /\
  GetKeys (text d) p = GetKeys (text d') p' /\ GetValues (text d) p = GetValues (text d') p' /\
  GetKeysValues (text d) p = GetKeysValues (text d') p' /\
  (container v = true -> Length (text d) p = Length (text d') p' /\ IsEmpty (text d) p = IsEmpty (text d') p').
Proof.
  intros Hw Hw' Hp Hp' Hl Hl'. destruct (long_text _ (below_long d p v Hw Hp Hl)) as [N _]. destruct (long_text _ (below_long d' p' v Hw' Hp' Hl')) as [N' _].
  split; [intro pf; rewrite (get_type pf d p v Hw Hl), (get_type pf d' p' v Hw' Hl') by tauto; reflexivity|].
  enough (L : GetKeys (text d) p = GetKeys (text d') p' /\ GetValues (text d) p = GetValues (text d') p' /\ GetKeysValues (text d) p = GetKeysValues (text d') p').
  { destruct L as (L1 & L2 & L3). repeat (split; [assumption|]). intro Ec. split.
    - rewrite (length_spec d p v Hw Hl Ec), (length_spec d' p' v Hw' Hl' Ec). destruct p, p'; try contradiction. reflexivity.
    - rewrite (is_empty_container d p v Hw Hl Ec), (is_empty_container d' p' v Hw' Hl' Ec). reflexivity. }
  destruct (is_obj v) eqn:EO.
  - destruct v as [| | |w ms]; try discriminate EO.
    rewrite (get_keys d p w ms Hw Hl), (get_keys d' p' w ms Hw' Hl'), (get_values_exact d p w ms Hw Hl), (get_values_exact d' p' w ms Hw' Hl'),
      (get_keys_values_exact d p w ms Hw Hl), (get_keys_values_exact d' p' w ms Hw' Hl'), N, N'. auto.
  - destruct (get_kv_wrong d p v Hw Hl EO) as (-> & -> & ->). destruct (get_kv_wrong d' p' v Hw' Hl' EO) as (-> & -> & ->). auto.
Qed.
Theorem iterators_at (St : Type) d d' p p' v : wf_doc d = true -> wf_doc d' = true -> p <> [] -> p' <> [] ->
  lookup (d_val d) p = Some v -> lookup (d_val d') p' = Some v ->
  (forall (cb : St -> bytes -> St * (bool * option err)) s, IterateArray (text d) cb p s = IterateArray (text d') cb p' s) /\
  (forall (cb : St -> bytes -> bytes -> St * (bool * option err)) s, IterateKeyValue (text d) cb p s = IterateKeyValue (text d') cb p' s).
Proof.
  intros Hw Hw' Hp Hp' Hl Hl'. pose proof (below_long d p v Hw Hp Hl) as B. pose proof (below_long d' p' v Hw' Hp' Hl') as B'.
  destruct (long_text _ B) as [N M]. destruct (long_text _ B') as [N' M']. split; intros cb s.
  - destruct (is_arr v) eqn:EA.
    + destruct v as [| |w els|]; try discriminate EA. destruct els as [|e els].
      * rewrite (iterate_array_empty' cb d p w s Hw Hl), (iterate_array_empty' cb d' p' w s Hw' Hl'), M, M'. reflexivity.
      * rewrite (iterate_array cb d p w _ s Hw Hl), (iterate_array cb d' p' w _ s Hw' Hl') by discriminate. reflexivity.
    + rewrite (iterate_array_wrong cb d p v s Hw Hl EA), (iterate_array_wrong cb d' p' v s Hw' Hl' EA).
      apply Nat.ltb_ge in B, B'. rewrite B, B'. reflexivity.
  - destruct (is_obj v) eqn:EO.
    + destruct v as [| | |w ms]; try discriminate EO. rewrite (iterate_kv_exact cb d p w ms s Hw Hl), (iterate_kv_exact cb d' p' w ms s Hw' Hl'), N, N'. reflexivity.
    + rewrite (iterate_kv_wrong cb d p v s Hw Hl EO), (iterate_kv_wrong cb d' p' v s Hw' Hl' EO). reflexivity.
Qed.

(** ** A piece taken out *)
Lemma piece_text u : text (piece u) = render u.
Proof. unfold text, piece. cbn [d_pre d_val d_post app]. apply app_nil_r. Qed.
Lemma piece_wf u : wf u = true -> wf_doc (piece u) = true.
Proof. intro H. unfold wf_doc, piece. cbn [d_pre d_val d_post]. rewrite H. reflexivity. Qed.
Theorem piece_out d p u : wf_doc d = true -> p <> [] -> lookup (d_val d) p = Some u -> container u = true ->
  Get (text d) p = Ok (render u) /\ text (piece u) = render u /\ wf_doc (piece u) = true /\
  forall q v, lookup u q = Some v -> lookup (d_val d) (p ++ q) = Some v /\ lookup (d_val (piece u)) q = Some v.
Proof.
  intros Hw Hp Hl Hc. split; [rewrite (get_present d p u Hw Hp Hl), (bare_container u Hc); reflexivity|]. split; [apply piece_text|].
  split; [apply piece_wf, (lookup_wf _ _ _ Hw Hl)|]. intros q v H. split; [rewrite lookup_step, Hl; exact H|exact H].
Qed.

(** ** Updates *)
Lemma under_move p o : under p o = move (p ++ place o) o.
Proof. destruct o; reflexivity. Qed.
Lemma update_step d p u o c : wf_doc d = true -> p <> [] -> lookup (d_val d) p = Some u ->
  legal d (under p o) -> legal (piece u) o -> meaning o (content u) = Some c ->
  exists u1 d1, call o (render u) = Done (render u1) /\ call (under p o) (text d) = Done (text d1) /\ wf_doc d1 = true /\
    lookup (d_val d1) p = Some u1 /\ content u1 = c /\ (forall new, Set_ (text d1) new p = Set_ (text d) new p) /\ Set_ (text d) (render u1) p = Done (text d1).
Proof.
  intros Hw Hp Hl L L2 M. pose proof (lookup_wf _ _ _ Hw Hl) as Hu. pose proof (piece_wf u Hu) as HP. pose proof M as M0. rewrite meaning_at in M.
  change (content u) with (content (d_val (piece u))) in M. destruct (modify_focus (piece u) _ _ _ M) as (pr & v & po & F & G). cbn [piece d_val] in F, M.
  destruct (op_writes_at o v (legal_args _ _ L2) (focus_wf _ _ _ _ _ F Hu) G) as (v' & V & E & _ & W).
  destruct (lookup_focus _ _ _ Hl) as (pre & post & Fd). pose proof (focus_app _ _ _ _ _ _ _ _ _ Fd F) as Fv.
  destruct (focus_modify _ _ _ _ _ (fun _ => Some v') v' F eq_refl) as (u1 & M1 & F1).
  assert (Hu1 : wf u1 = true) by (eapply modify_wf with (f := fun _ => Some v'); [exact (focus_lookup _ _ _ _ _ F)|reflexivity|exact Hu|exact V|exact M1]).
  destruct (with_at d p pre u post u1 Hw Fd Hu1) as (d1 & Hw1 & Hp1 & Hp2 & Fd1 & T1). exists u1, d1.
  split; [|split; [|split; [exact Hw1|split; [exact (focus_lookup _ _ _ _ _ Fd1)|split; [|split]]]]].
  - pose proof (W (place o) (piece u) pr po HP F) as R. rewrite move_here, piece_text in R. rewrite (R L2). cbn [piece d_pre d_post app].
    rewrite (focus_render _ _ _ _ _ F1), app_nil_r. reflexivity.
  - rewrite under_move in *. rewrite (W _ d _ _ Hw Fv L), T1, (focus_render _ _ _ _ _ F1). f_equal. same_text.
  - pose proof (modify_content_at _ _ _ _ _ _ _ (effect o) F M1 E) as C. congruence.
  - intro new. rewrite (set_present d p pre u post new Hw Hp Fd), (set_present d1 p pre u1 post new Hw1 Hp Fd1), Hp1, Hp2. reflexivity.
  - rewrite (set_present d p pre u post (render u1) Hw Hp Fd), T1. reflexivity.
Qed.
Theorem piece_update d p u o c : wf_doc d = true -> p <> [] -> lookup (d_val d) p = Some u ->
  legal d (under p o) -> legal (piece u) o -> meaning o (content u) = Some c ->
  exists r out, call o (render u) = Done r /\ call (under p o) (text d) = Done out /\ Set_ (text d) r p = Done out.
Proof. intros Hw Hp Hl L L2 M. destruct (update_step d p u o c Hw Hp Hl L L2 M) as (u1 & d1 & H1 & H2 & _ & _ & _ & _ & H3). exists (render u1), (text d1). auto. Qed.
Theorem piece_history p ops : Forall plain_op ops -> forall d u c, wf_doc d = true -> p <> [] -> lookup (d_val d) p = Some u ->
  meanings ops (content u) = Some c ->
  exists r out, run ops (render u) = Some r /\ run (map (under p) ops) (text d) = Some out /\ Set_ (text d) r p = Done out.
Proof.
  induction 1 as [|o ops Ho _ IH]; intros d u c Hw Hp Hl M.
  - exists (render u), (text d). split; [reflexivity|]. split; [reflexivity|]. apply set_same; assumption.
  - cbn [meanings] in M. destruct (meaning o (content u)) as [c1|] eqn:E; [|discriminate M].
    assert (L : legal d (under p o)) by (destruct o as [q v| | | | | |]; cbn in *; try tauto; destruct Ho; split; [destruct p; [congruence|discriminate]|assumption]).
    assert (L2 : legal (piece u) o) by (destruct o; cbn in *; tauto).
    destruct (update_step d p u o c1 Hw Hp Hl L L2 E) as (u1 & d1 & H1 & H2 & Hw1 & Hl1 & Hc & Hs & _). cbn [run map]. rewrite H1, H2.
    rewrite <- Hc in M. destruct (IH d1 u1 c Hw1 Hp Hl1 M) as (r & out & R1 & R2 & R3). exists r, out. rewrite Hs in R3. auto.
Qed.

(** ** The piece itself, and steps that lead nowhere *)
Theorem piece_root (St : Type) d p u : wf_doc d = true -> p <> [] -> lookup (d_val d) p = Some u -> container u = true ->
  Get (render u) [] = Get (text d) p /\ IsArray (render u) [] = IsArray (text d) p /\ IsObject (render u) [] = IsObject (text d) p /\
  IsValue (render u) [] = IsValue (text d) p /\ (forall pf, GetType pf (render u) [] = GetType pf (text d) p) /\
  IsEmpty (render u) [] = IsEmpty (text d) p /\ GetStringArray (render u) [] = GetStringArray (text d) p /\
  GetIntArray (render u) [] = GetIntArray (text d) p /\ GetBoolArray (render u) [] = GetBoolArray (text d) p /\
  (lone u = false -> Length (render u) [] = Length (text d) p) /\
  (render u <> b "{}" -> render u <> b "[]" ->
     GetKeys (render u) [] = GetKeys (text d) p /\ GetValues (render u) [] = GetValues (text d) p /\
     GetKeysValues (render u) [] = GetKeysValues (text d) p /\
     (is_arr u = true -> forall (cb : St -> bytes -> St * (bool * option err)) s, IterateArray (render u) cb [] s = IterateArray (text d) cb p s) /\
     (forall (cb : St -> bytes -> bytes -> St * (bool * option err)) s, IterateKeyValue (render u) cb [] s = IterateKeyValue (text d) cb p s)).
Proof.
  intros Hw Hp Hl Hc. pose proof (piece_wf u (lookup_wf _ _ _ Hw Hl)) as Hw'. rewrite <- (piece_text u). assert (Hl' : lookup (d_val (piece u)) [] = Some u) by reflexivity.
  destruct (long_text _ (below_long d p u Hw Hp Hl)) as [N M]. destruct (array_via_text d p u Hw Hp Hl) as (A1 & A2 & A3 & _). rewrite (bare_container u Hc), <- (piece_text u) in A1, A2, A3.
  destruct (types_at (piece u) d [] p u Hw' Hw Hl' Hl) as (T1 & T2 & T3).
  split; [rewrite (get_present d p u Hw Hp Hl), (bare_container u Hc), piece_text; reflexivity|].
  do 3 (split; [assumption|]). split; [intro pf; rewrite (get_type pf _ [] u Hw' Hl'), (get_type pf d p u Hw Hl) by tauto; reflexivity|].
  split; [rewrite (is_empty_container _ [] u Hw' Hl' Hc), (is_empty_container d p u Hw Hl Hc); reflexivity|].
  do 3 (split; [congruence|]). split; [intro Lo; rewrite (length_spec _ [] u Hw' Hl' Hc), (length_spec d p u Hw Hl Hc), Lo; destruct p; reflexivity|].
  intros E1 E2. apply bytes_eqb_neq in E1, E2.
  assert (L : GetKeys (text (piece u)) [] = GetKeys (text d) p /\ GetValues (text (piece u)) [] = GetValues (text d) p /\
     GetKeysValues (text (piece u)) [] = GetKeysValues (text d) p).
  { destruct (is_obj u) eqn:EO.
    - destruct u as [| | |w ms]; try discriminate EO.
      rewrite (get_keys d p w ms Hw Hl), (get_keys _ [] w ms Hw' Hl'), (get_values_exact d p w ms Hw Hl), (get_values_exact _ [] w ms Hw' Hl'),
        (get_keys_values_exact d p w ms Hw Hl), (get_keys_values_exact _ [] w ms Hw' Hl'), N, E1. auto.
    - destruct (get_kv_wrong d p u Hw Hl EO) as (-> & -> & ->). destruct (get_kv_wrong _ [] u Hw' Hl' EO) as (-> & -> & ->). auto. }
  destruct L as (L1 & L2 & L3). do 3 (split; [assumption|]). split.
  - intros EA cb s. destruct u as [| |w els|]; try discriminate EA. destruct els as [|e els].
    + rewrite (iterate_array_empty' cb d p w s Hw Hl), (iterate_array_empty' cb _ [] w s Hw' Hl'), M, E2. reflexivity.
    + rewrite (iterate_array cb d p w _ s Hw Hl), (iterate_array cb _ [] w _ s Hw' Hl') by discriminate. reflexivity.
  - intros cb s. destruct (is_obj u) eqn:EO.
    + destruct u as [| | |w ms]; try discriminate EO. rewrite (iterate_kv_exact cb d p w ms s Hw Hl), (iterate_kv_exact cb _ [] w ms s Hw' Hl'), N, E1. reflexivity.
    + rewrite (iterate_kv_wrong cb d p u s Hw Hl EO), (iterate_kv_wrong cb _ [] u s Hw' Hl' EO). reflexivity.
Qed.
Theorem piece_nowhere d p u : wf_doc d = true -> lookup (d_val d) p = Some u ->
  (forall q x rest w els, lookup u q = Some (JArr w els) -> bad_step els x = true ->
     Get (text d) (p ++ q ++ x :: rest) = Get (render u) (q ++ x :: rest)) /\
  (forall q x rest, seen_absent d (p ++ q) x -> seen_absent (piece u) q x ->
     Get (text d) (p ++ q ++ x :: rest) = Get (render u) (q ++ x :: rest)).
Proof.
  intros Hw Hl. pose proof (piece_wf u (lookup_wf _ _ _ Hw Hl)) as Hw'. split.
  - intros q x rest w els Hq Hb. assert (Hd : lookup (d_val d) (p ++ q) = Some (JArr w els)) by (rewrite lookup_step, Hl; exact Hq).
    destruct (get_bad_step d (p ++ q) x rest w els Hw Hd) as [B1 B2]. destruct (get_bad_step (piece u) q x rest w els Hw' Hq) as [C1 C2]. rewrite <- app_assoc in B1, B2. rewrite piece_text in C1, C2.
    unfold bad_step in Hb. destruct (atoi x) as [z|]; [|rewrite B1, C1 by reflexivity; reflexivity].
    destruct (nth_z els z) eqn:Ez; [discriminate Hb|]. rewrite (B2 z eq_refl Ez), (C2 z eq_refl Ez). reflexivity.
  - intros q x rest H1 H2. rewrite app_assoc, (get_seen_absent d _ x rest Hw H1). rewrite <- (piece_text u), (get_seen_absent _ _ x rest Hw' H2). reflexivity.
Qed.
