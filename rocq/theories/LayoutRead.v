(** Documents of the same content: what the reading functions say of them. *)
From Coq Require Import String.
From Verif Require Import GoStd Json Spec SpecProofs Focus Domains Core CoreProofs Errors Api ApiProofs SpecIter SpecList Iter IterProofs IterObj IterMisc Split ListExact Layout.

Local Open Scope N_scope.

Lemma same_place d d' p v : content (d_val d) = content (d_val d') -> lookup (d_val d) p = Some v ->
  exists v', lookup (d_val d') p = Some v' /\ content v = content v'.
Proof.
  intros Hc Hl. pose proof (lookup_content (d_val d) p) as E. rewrite Hc, lookup_content, Hl in E. cbn [option_map] in E.
  destruct (lookup (d_val d') p) as [v'|]; [|discriminate]. injection E as E. exists v'. auto.
Qed.

Theorem types_same d d' p v : wf_doc d = true -> wf_doc d' = true -> content (d_val d) = content (d_val d') ->
  lookup (d_val d) p = Some v ->
  IsArray (text d) p = IsArray (text d') p /\ IsObject (text d) p = IsObject (text d') p /\ IsValue (text d) p = IsValue (text d') p.
Proof.
  intros Hw Hw' Hc Hl. destruct (same_place d d' p v Hc Hl) as (v' & Hl' & E).
  rewrite (is_array d p v Hw Hl), (is_array d' p v' Hw' Hl'), (is_object d p v Hw Hl), (is_object d' p v' Hw' Hl'),
    (is_value d p v Hw Hl), (is_value d' p v' Hw' Hl'), (same_kind _ _ E).
  split; [|split; reflexivity]. destruct v, v'; cbn [content] in E; try discriminate E; reflexivity.
Qed.

Lemma nothing_in_empty x p : Get (b "{}") (x :: p) = Err (EKeyNotFound x).
Proof. reflexivity. Qed.
Lemma below_not_empty d p v : wf_doc d = true -> p <> [] -> lookup (d_val d) p = Some v -> bytes_eqb (text d) (b "{}") = false.
Proof.
  intros Hw Hp Hl. destruct (bytes_eqb (text d) (b "{}")) eqn:E; [|reflexivity]. exfalso. apply bytes_eqb_eq in E.
  pose proof (get_present d p v Hw Hp Hl) as G. rewrite E in G. destruct p as [|x p]; [contradiction|]. rewrite nothing_in_empty in G. discriminate G.
Qed.

Theorem below_same d d' p v : wf_doc d = true -> wf_doc d' = true -> content (d_val d) = content (d_val d') ->
  p <> [] -> lookup (d_val d) p = Some v ->
  (forall pf, GetType pf (text d) p = GetType pf (text d') p) /\ GetKeys (text d) p = GetKeys (text d') p /\
  (container v = true -> Length (text d) p = Length (text d') p).
Proof.
  intros Hw Hw' Hc Hp Hl. destruct (same_place d d' p v Hc Hl) as (v' & Hl' & E). split; [|split].
  - intro pf. rewrite (get_type pf d p v Hw Hl), (get_type pf d' p v' Hw' Hl') by tauto.
    destruct v, v'; cbn [content] in E; try discriminate E; try reflexivity. injection E as ->. reflexivity.
  - destruct (is_obj v) eqn:EO.
    + destruct v as [| | |w ms]; try discriminate EO. destruct v' as [| | |w' ms']; try discriminate E.
      rewrite (get_keys d p w ms Hw Hl), (get_keys d' p w' ms' Hw' Hl'), (below_not_empty d p _ Hw Hp Hl), (below_not_empty d' p _ Hw' Hp Hl').
      f_equal. cbn [content] in E. injection E as E. unfold keys. apply (f_equal (map fst)) in E. rewrite !map_map in E. cbn [fst] in E. exact E.
    + assert (EO' : is_obj v' = false) by (destruct v, v'; cbn [content] in E; try discriminate E; try discriminate EO; reflexivity).
      destruct (get_kv_wrong d p v Hw Hl EO) as (-> & _). destruct (get_kv_wrong d' p v' Hw' Hl' EO') as (-> & _). reflexivity.
  - intro Ec. assert (Ec' : container v' = true) by (rewrite <- (same_kind _ _ E); exact Ec).
    rewrite (length_spec d p v Hw Hl Ec), (length_spec d' p v' Hw' Hl' Ec'). destruct p; [contradiction|]. f_equal.
    destruct v, v'; cbn [content] in E; try discriminate E; try discriminate Ec; injection E as E; apply (f_equal (@length _)) in E; rewrite !map_length in E; exact E.
Qed.

Theorem getters_same d d' p v : wf_doc d = true -> wf_doc d' = true -> content (d_val d) = content (d_val d') ->
  p <> [] -> lookup (d_val d) p = Some v -> container v = false ->
  GetString (text d) p = GetString (text d') p /\ GetInt (text d) p = GetInt (text d') p /\ GetBool (text d) p = GetBool (text d') p /\
  GetStringArray (text d) p = GetStringArray (text d') p /\ GetIntArray (text d) p = GetIntArray (text d') p /\
  GetBoolArray (text d) p = GetBoolArray (text d') p /\
  forall F (pf : bytes -> option F), GetFloat pf (text d) p = GetFloat pf (text d') p /\ GetFloatArray pf (text d) p = GetFloatArray pf (text d') p.
Proof.
  intros Hw Hw' Hc Hp Hl Ec. destruct (same_place d d' p v Hc Hl) as (v' & Hl' & E). pose proof (same_bare v v' E Ec) as B.
  assert (G : GetString (text d) p = GetString (text d') p).
  { unfold GetString. rewrite (get_present d p v Hw Hp Hl), (get_present d' p v' Hw' Hp Hl'), B. reflexivity. }
  destruct (array_via_text d p v Hw Hp Hl) as (A1 & A2 & A3 & A4). destruct (array_via_text d' p v' Hw' Hp Hl') as (B1 & B2 & B3 & B4).
  split; [exact G|]. split; [unfold GetInt; rewrite G; reflexivity|]. split; [unfold GetBool; rewrite G; reflexivity|].
  split; [rewrite A1, B1, B; reflexivity|]. split; [rewrite A2, B2, B; reflexivity|]. split; [rewrite A3, B3, B; reflexivity|].
  intros F pf. split; [unfold GetFloat; rewrite G; reflexivity|]. rewrite A4, B4, B. reflexivity.
Qed.

Lemma listing_items d p w els : wf_doc d = true -> whole d p -> lookup (d_val d) p = Some (JArr w els) -> els <> [] -> tight_e w els ->
  listing w els = Some (items els).
Proof.
  intros Hw Hh Hl Hn Ht. pose proof (get_string_array d p w els Hw Hh Hl Hn Ht) as G.
  rewrite (proj1 (array_getters_exact d p w els Hw Hl) Hh) in G. destruct els as [|e els]; [contradiction|].
  destruct w, (listing _ _); congruence.
Qed.

(** An array without containers in it, below the root, where the trimming of the array getters is in order. *)
Theorem arrays_same d d' p w els w' els' : wf_doc d = true -> wf_doc d' = true -> content (d_val d) = content (d_val d') ->
  p <> [] -> lookup (d_val d) p = Some (JArr w els) -> lookup (d_val d') p = Some (JArr w' els') -> els <> [] ->
  forallb (fun e => negb (container (e_val e))) els = true -> tight_e w els -> tight_e w' els' ->
  GetStringArray (text d) p = GetStringArray (text d') p /\ GetIntArray (text d) p = GetIntArray (text d') p /\
  GetBoolArray (text d) p = GetBoolArray (text d') p /\
  forall F (pf : bytes -> option F), GetFloatArray pf (text d) p = GetFloatArray pf (text d') p.
Proof.
  intros Hw Hw' Hc Hp Hl Hl' Hn Hs Ht Ht'. destruct (same_place d d' p _ Hc Hl) as (v' & Hl2 & E). rewrite Hl' in Hl2. injection Hl2 as <-.
  cbn [content] in E. injection E as E. assert (Hn' : els' <> []) by (intros ->; destruct els; [contradiction|discriminate E]).
  assert (I : items els = items els').
  { clear - E Hs. revert els' E. induction els as [|e els IH]; intros [|e' els'] E; try discriminate E; [reflexivity|].
    cbn [map forallb] in *. apply andb_true_iff in Hs. destruct Hs as [Hs1 Hs2]. injection E as E1 E2. unfold items in *. cbn [map]. f_equal; [|apply IH; assumption].
    apply same_bare; [exact E1|]. destruct (container (e_val e)); [discriminate Hs1|reflexivity]. }
  assert (H1 : whole d p) by (left; exact Hp). assert (H2 : whole d' p) by (left; exact Hp).
  pose proof (listing_items d p w els Hw H1 Hl Hn Ht) as L. pose proof (listing_items d' p w' els' Hw' H2 Hl' Hn' Ht') as L'. rewrite <- I in L'.
  rewrite (proj1 (int_array_exact d p w els Hw Hl) H1), (proj1 (int_array_exact d' p w' els' Hw' Hl') H2),
    (proj1 (bool_array_exact d p w els Hw Hl) H1), (proj1 (bool_array_exact d' p w' els' Hw' Hl') H2), L, L'.
  split; [rewrite (get_string_array d p w els Hw H1 Hl Hn Ht), (get_string_array d' p w' els' Hw' H2 Hl' Hn' Ht'), I; reflexivity|].
  split; [reflexivity|]. split; [reflexivity|]. intros F pf.
  rewrite (proj1 (float_array_exact pf d p w els Hw Hl) H1), (proj1 (float_array_exact pf d' p w' els' Hw' Hl') H2), L, L'. reflexivity.
Qed.

(** What Indent and Flatten write is a document of the same content, so all of this can be said of it. *)
From Verif Require Import SpecFormat Format FormatProofs.

Theorem indent_same d : wf_doc d = true -> calm (d_val d) = true -> (forall s, d_val d <> JString s) ->
  exists d', Indent (text d) = Ok (text d') /\ wf_doc d' = true /\ content (d_val d') = content (d_val d).
Proof.
  intros Hw Hc Hs. exists (Doc [] (pretty 0 (d_val d)) []). unfold text at 2, wf_doc. cbn [d_pre d_val d_post app]. rewrite app_nil_r.
  split; [apply indent_doc; assumption|]. split; [|apply pretty_content]. rewrite pretty_wf; [reflexivity|]. apply wf_doc_val. exact Hw.
Qed.

Theorem flatten_same_doc d : wf_doc d = true -> exists d', Flatten (text d) = text d' /\ wf_doc d' = true /\ content (d_val d') = content (d_val d).
Proof.
  intros Hw. exists (Doc [] (strip (d_val d)) []). unfold text at 2, wf_doc. cbn [d_pre d_val d_post app]. rewrite app_nil_r.
  split; [apply flatten_doc; assumption|]. split; [|apply strip_content]. rewrite strip_wf; [reflexivity|]. apply wf_doc_val. exact Hw.
Qed.
