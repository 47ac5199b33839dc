(** Documents made of Go maps and slices change as the maps and slices do (C78). *)
From Coq Require Import String Lia Permutation.
From Verif Require Import GoStd Json Spec SpecProofs Focus Domains Core Skip CoreProofs Errors Api ApiProofs Updates Parse Ops History Neat Laws SpecFlat
  Typed TypedProofs SpecTyped Make MakeProofs Layout Flat SpecMade.
From Verif Require SpecIter Iter IterMisc ListExact LookupFails Rfc RfcProofs.

Local Open Scope N_scope.

(** ** What is written for a string *)
Definition content_of (s : bytes) : jd := match parse_doc s with Some d => content (d_val d) | None => DScalar s end.
Lemma content_of_flat c : wf (tree c) = true -> content_of (flat c) = c.
Proof.
  intro H. destruct (parse_doc_complete (plain c) (plain_wf c H)) as (d' & E & Ec). rewrite plain_text in E. unfold content_of. rewrite E, Ec. apply content_tree.
Qed.
Definition tok (pf : bytes -> bool) (s : bytes) : jd := if bytes_eqb (formatType pf s) s then content_of s else DString s.
Lemma tok_nested pf c : match c with DArr _ | DObj _ => True | _ => False end -> wf (tree c) = true -> formatType pf (flat c) = flat c /\ tok pf (flat c) = c.
Proof.
  intros Hc Hw. assert (E : formatType pf (flat c) = flat c).
  { apply formatType_kept. right. unfold fenced, flat. destruct c as [s|s|cs|ms]; try contradiction; cbn [tree]; rewrite ?render_arr, ?render_obj, app_assoc; rewrite !app_comm_cons, last_app_one; reflexivity. }
  split; [exact E|]. unfold tok. rewrite E, (proj2 (bytes_eqb_eq _ _) eq_refl). apply content_of_flat, Hw.
Qed.
Lemma tok_simple pf s : fit pf s -> tok pf s = DScalar s /\ formatType pf s = s /\ scalar_ok s = true \/ tok pf s = DString s /\ formatType pf s = render (JString s) /\ str_ok s = true.
Proof.
  intros (H1 & H2 & H3). destruct (formatType_simple pf s H1 H2 H3) as (v & [[-> | ->] W] & E); unfold tok; rewrite E.
  - left. cbn [render]. rewrite (proj2 (bytes_eqb_eq s s) eq_refl). split; [|auto]. apply (content_of_flat (DScalar s)), W.
  - right. rewrite (proj2 (bytes_eqb_neq _ _)); [auto|]. intro Hs. apply (f_equal (@length N)) in Hs. cbn [render length] in Hs. rewrite app_length in Hs. cbn in Hs. lia.
Qed.
Lemma tok_fit pf s : item pf s -> flat (tok pf s) = formatType pf s /\ wf (tree (tok pf s)) = true /\ shown (tok pf s) = s.
Proof.
  intros [H|(c & Hc & -> & Hw & _)].
  - destruct (tok_simple pf s H) as [(-> & -> & W)|(-> & -> & W)]; (split; [reflexivity|]; split; [exact W|reflexivity]).
  - destruct (tok_nested pf c Hc Hw) as [-> ->]. split; [reflexivity|]. split; [exact Hw|]. destruct c; try contradiction; reflexivity.
Qed.
Lemma tok_tame pf s : item pf s -> tame (tree (tok pf s)) = true.
Proof.
  intros [H|(c & Hc & -> & Hw & Hm)]; [destruct (tok_simple pf s H) as [(-> & _)|(-> & _)]; reflexivity|]. destruct (tok_nested pf c Hc Hw) as [_ ->]. destruct c; try contradiction; exact Hm.
Qed.

(** ** Lists of pairs under a map of the values *)
Section map_values.
  Context {A B : Type} (f : A -> B).
  Definition mv (ps : list (bytes * A)) : list (bytes * B) := map (fun kv => (fst kv, f (snd kv))) ps.
  Lemma mv_fst ps : map fst (mv ps) = map fst ps.
  Proof. unfold mv. rewrite map_map. reflexivity. Qed.
  Lemma mv_assoc k ps : assoc k (mv ps) = option_map f (assoc k ps).
  Proof. induction ps as [|[k' v] ps IH]; [reflexivity|]. cbn [mv map assoc fst snd]. destruct (bytes_eqb k' k); [reflexivity|exact IH]. Qed.
  Lemma mv_set k v ps : assoc_set k (f v) (mv ps) = mv (assoc_set k v ps).
  Proof. induction ps as [|[k' u] ps IH]; [reflexivity|]. cbn [mv map assoc_set fst snd]. destruct (bytes_eqb k' k); [reflexivity|]. cbn [map fst snd]. f_equal. exact IH. Qed.
  Lemma mv_remove k ps : assoc_remove k (mv ps) = mv (assoc_remove k ps).
  Proof. induction ps as [|[k' u] ps IH]; [reflexivity|]. cbn [mv map assoc_remove fst snd]. destruct (bytes_eqb k' k); [reflexivity|]. cbn [map fst snd]. f_equal. exact IH. Qed.
  Lemma mv_rename k n ps : assoc_rename k n (mv ps) = mv (assoc_rename k n ps).
  Proof. induction ps as [|[k' u] ps IH]; [reflexivity|]. cbn [mv map assoc_rename fst snd]. destruct (bytes_eqb k' k); [reflexivity|]. cbn [map fst snd]. f_equal. exact IH. Qed.
  Lemma mv_app ps qs : mv (ps ++ qs) = mv ps ++ mv qs.
  Proof. apply map_app. Qed.
End map_values.

Lemma assoc_none {V} k (ps : list (bytes * V)) : assoc k ps = None <-> ~ In k (map fst ps).
Proof.
  induction ps as [|[k' v] ps IH]; cbn [assoc map fst In]; [tauto|]. destruct (bytes_eqb k' k) eqn:E.
  - apply bytes_eqb_eq in E. split; [discriminate|]. intro H. exfalso. apply H. left. exact E.
  - apply bytes_eqb_neq in E. rewrite IH. tauto.
Qed.
Lemma assoc_set_fst {V} k (v : V) ps : map fst (assoc_set k v ps) = map fst ps.
Proof. induction ps as [|[k' u] ps IH]; [reflexivity|]. cbn [assoc_set]. destruct (bytes_eqb k' k); cbn [map fst]; [reflexivity|]. f_equal. exact IH. Qed.
Lemma assoc_set_snd {V} (P : V -> Prop) k v ps : P v -> Forall P (map snd ps) -> Forall P (map snd (assoc_set k v ps)).
Proof.
  intros Hv. induction ps as [|[k' u] ps IH]; intro H; [constructor|]. cbn [assoc_set map snd] in *. inversion H; subst.
  destruct (bytes_eqb k' k); cbn [map snd]; constructor; auto.
Qed.
Lemma remove_sub {V} k (ps : list (bytes * V)) x : In x (assoc_remove k ps) -> In x ps.
Proof. induction ps as [|[k' u] ps IH]; [intros []|]. cbn [assoc_remove]. destruct (bytes_eqb k' k); [right; assumption|]. intros [H|H]; [left|right]; auto. Qed.
Lemma remove_nodup {V} k (ps : list (bytes * V)) : NoDup (map fst ps) -> NoDup (map fst (assoc_remove k ps)).
Proof.
  induction ps as [|[k' u] ps IH]; intro H; [constructor|]. cbn [assoc_remove map fst] in *. inversion H; subst. destruct (bytes_eqb k' k); [assumption|].
  cbn [map fst]. constructor; [|auto]. intro Hi. apply in_map_iff in Hi. destruct Hi as (x & Hx & Hi). apply remove_sub in Hi. apply (in_map fst) in Hi. rewrite Hx in Hi. contradiction.
Qed.
Lemma rename_snd {V} k n (ps : list (bytes * V)) : map snd (assoc_rename k n ps) = map snd ps.
Proof. induction ps as [|[k' u] ps IH]; [reflexivity|]. cbn [assoc_rename]. destruct (bytes_eqb k' k); cbn [map snd]; [reflexivity|]. f_equal. exact IH. Qed.
Lemma rename_in {V} k n (ps : list (bytes * V)) x : In x (map fst (assoc_rename k n ps)) -> x = n \/ In x (map fst ps).
Proof.
  induction ps as [|[k' u] ps IH]; [intros []|]. cbn [assoc_rename]. destruct (bytes_eqb k' k); cbn [map fst In]; intros [H|H]; auto.
  destruct (IH H); auto.
Qed.
Lemma rename_nodup {V} k n (ps : list (bytes * V)) : NoDup (map fst ps) -> ~ In n (map fst ps) -> NoDup (map fst (assoc_rename k n ps)).
Proof.
  induction ps as [|[k' u] ps IH]; intros H Hn; [constructor|]. cbn [assoc_rename map fst In] in *. inversion H; subst.
  destruct (bytes_eqb k' k); cbn [map fst]; constructor; try tauto.
  intro Hi. apply rename_in in Hi. destruct Hi as [-> |Hi]; tauto.
Qed.

(** ** Objects *)
Definition obj pf (ps : list (bytes * bytes)) : jd := DObj (mv (tok pf) ps).
Lemma made_flat pf ps : Forall (item pf) (map snd ps) -> MakeJsonWithMap pf (nonnil ps) = flat (obj pf ps).
Proof.
  intro H. destruct ps as [|p ps]; [reflexivity|]. cbn [nonnil MakeJsonWithMap]. unfold obj, flat. cbn [tree].
  replace (JObj [] _) with (obj_of (map (fun kv => (fst kv, tree (tok pf (snd kv)))) (p :: ps))) by (unfold obj_of, mv; rewrite !map_map; reflexivity).
  rewrite <- build_obj by discriminate. rewrite map_map. f_equal. apply map_ext_in. intros [k v] Hi. unfold pair_item. cbn [fst snd].
  rewrite Forall_forall in H. destruct (tok_fit pf v (H v (in_map snd _ _ Hi))) as (E & _ & _). rewrite <- E. reflexivity.
Qed.
Lemma made_strings pf ps : MakeJsonString pf (nonnil (map fst ps)) (nonnil (map snd ps)) = Some (MakeJsonWithMap pf (nonnil ps)).
Proof.
  destruct ps as [|p ps]; [reflexivity|]. unfold MakeJsonString. cbn [map nonnil olen olist length]. rewrite !map_length, Nat.eqb_refl. cbn [negb].
  unfold MakeJsonWithMap. do 3 f_equal. change (fst p :: map fst ps) with (map fst (p :: ps)). change (snd p :: map snd ps) with (map snd (p :: ps)).
  generalize (p :: ps). clear. induction l as [|[k v] l IH]; [reflexivity|]. cbn [map combine fst snd]. f_equal. exact IH.
Qed.
Lemma obj_wf pf ps : sheet pf ps -> wf (tree (obj pf ps)) = true.
Proof.
  intros [[_ Hk] Hv]. unfold obj. cbn [tree]. rewrite wf_obj. cbn [ws_ok forallb andb]. unfold mv. rewrite map_map, RfcProofs.forallb_map, forallb_forall. intros [k v] Hi. unfold mem_ok. cbn.
  rewrite Forall_forall in Hk, Hv. rewrite (proj2 (Hk k (in_map fst _ _ Hi))). destruct (tok_fit pf v (Hv v (in_map snd _ _ Hi))) as (_ & -> & _). reflexivity.
Qed.
Lemma obj_shown pf ps : Forall (item pf) (map snd ps) -> map (fun m => shown (snd m)) (mv (tok pf) ps) = map snd ps.
Proof.
  intro H. unfold mv. rewrite map_map. apply map_ext_in. intros [k v] Hi. cbn [fst snd]. rewrite Forall_forall in H. apply tok_fit. apply H. exact (in_map snd _ _ Hi).
Qed.
Lemma obj_lookup pf ps k : d_lookup (obj pf ps) [k] = option_map (tok pf) (assoc k ps).
Proof. unfold obj. cbn [d_lookup d_child]. rewrite mv_assoc. destruct (assoc k ps); reflexivity. Qed.
Lemma obj_absent pf ps k : sheet pf ps -> assoc k ps = None -> seen_absent (plain (obj pf ps)) [] k.
Proof.
  intros [_ Hs] H. exists []. eexists. split; [reflexivity|]. split.
  - apply assoc_none in H. destruct (find_mem _ _) as [m|] eqn:E; [|reflexivity]. exfalso. apply find_some in E. destruct E as [Hi E]. apply in_map_iff in Hi.
    destruct Hi as ([k' c] & <- & Hi). cbn in E. apply bytes_eqb_eq in E. subst k'. apply H. rewrite <- (mv_fst (tok pf) ps). exact (in_map fst _ _ Hi).
  - left. unfold stray_at. cbn [lookup plain d_val]. cbn [tree obj rev]. unfold last_tame. rewrite <- map_rev. unfold mv. rewrite <- map_rev. destruct (rev ps) as [|[k' v] l] eqn:Er; [reflexivity|].
    cbn [map snd m_val]. rewrite tok_tame; [reflexivity|]. rewrite Forall_forall in Hs. apply Hs. apply (in_map snd ps (k', v)), in_rev. rewrite Er. left. reflexivity.
Qed.
Lemma obj_get_absent pf ps k : sheet pf ps -> assoc k ps = None -> Get (flat (obj pf ps)) [k] = Err (EKeyNotFound k).
Proof. intros Hs H. rewrite <- plain_text. apply (get_seen_absent _ [] k []); [apply plain_wf, obj_wf, Hs|apply obj_absent; assumption]. Qed.
Lemma obj_get pf ps k v : sheet pf ps -> assoc k ps = Some v -> Get (flat (obj pf ps)) [k] = Ok v.
Proof.
  intros Hs H. rewrite (flat_get _ [k] (tok pf v)); [|apply obj_wf, Hs|discriminate|rewrite obj_lookup, H; reflexivity]. f_equal. apply tok_fit.
  destruct Hs as [_ Hs]. rewrite Forall_forall in Hs. apply Hs. clear - H. induction ps as [|[k' u] ps IH]; [discriminate|]. cbn [assoc] in H.
  destruct (bytes_eqb k' k); [injection H as <-; left; reflexivity|right; auto].
Qed.

Lemma assoc_snd {V} k (ps : list (bytes * V)) v : assoc k ps = Some v -> In v (map snd ps).
Proof. induction ps as [|[k' u] ps IH]; [discriminate|]. cbn [assoc map snd]. destruct (bytes_eqb k' k); [intros [= <-]; left; reflexivity|right; auto]. Qed.

(** The steps keep sheets. *)
Lemma usable_snoc ks k : usable ks -> ~ In k ks -> k <> [] -> str_ok k = true -> usable (ks ++ [k]).
Proof.
  intros [H1 H2] Hn H3 H4. split; [|apply Forall_app; split; [exact H2|repeat constructor; assumption]].
  apply (Permutation_NoDup (l := k :: ks)); [apply Permutation_cons_append|]. constructor; assumption.
Qed.
Lemma sheet_snoc pf ps k v : sheet pf ps -> assoc k ps = None -> k <> [] -> str_ok k = true -> item pf v -> sheet pf (ps ++ [(k, v)]).
Proof.
  intros [H1 H2] Hn H3 H4 H5. apply assoc_none in Hn. unfold sheet. rewrite !map_app. split; [apply usable_snoc; assumption|]. apply Forall_app. split; [exact H2|]. constructor; [exact H5|constructor].
Qed.
Lemma sheet_set pf ps k v : sheet pf ps -> item pf v -> sheet pf (assoc_set k v ps).
Proof. intros [H1 H2] Hv. split; [rewrite assoc_set_fst; exact H1|apply assoc_set_snd; assumption]. Qed.
Lemma sheet_remove pf ps k : sheet pf ps -> sheet pf (assoc_remove k ps).
Proof.
  intros [[H0 H1] H2]. split; [split; [apply remove_nodup, H0|]|]; rewrite Forall_forall in *; intros x Hx; apply in_map_iff in Hx; destruct Hx as (y & <- & Hy); apply remove_sub in Hy.
  - apply H1. exact (in_map fst _ _ Hy).
  - apply H2. exact (in_map snd _ _ Hy).
Qed.
Lemma sheet_rename pf ps k n : sheet pf ps -> assoc n ps = None -> n <> [] -> str_ok n = true -> sheet pf (assoc_rename k n ps).
Proof.
  intros [[H0 H1] H2] Hn H3 H4. apply assoc_none in Hn. split; [split; [apply rename_nodup; assumption|]|rewrite rename_snd; exact H2].
  rewrite Forall_forall in *. intros x Hx. apply rename_in in Hx. destruct Hx as [-> |Hx]; [auto|apply H1, Hx].
Qed.

Lemma set_string_call pf t v p : item pf v -> SetString pf t v p = call (OSet p (tree (tok pf v))) t.
Proof. intro H. destruct (tok_fit pf v H) as (E & _ & _). unfold SetString. rewrite <- E. reflexivity. Qed.

Theorem sheet_step pf c ps : sheet pf ps -> cmd_ok pf c ->
  match step c ps with
  | inl ps' => do_cmd pf c (MakeJsonWithMap pf (nonnil ps)) = Done (MakeJsonWithMap pf (nonnil ps')) /\ sheet pf ps'
  | inr e => do_cmd pf c (MakeJsonWithMap pf (nonnil ps)) = Fail (Some (MakeJsonWithMap pf (nonnil ps))) e
  end.
Proof.
  intros Hs Hc. pose proof (obj_wf pf ps Hs) as Hw. rewrite (made_flat pf ps (proj2 Hs)).
  assert (U : forall o ps', sheet pf ps' -> flat_op o -> legal (plain (obj pf ps)) o -> meaning o (obj pf ps) = Some (obj pf ps') ->
                call o (flat (obj pf ps)) = Done (MakeJsonWithMap pf (nonnil ps')) /\ sheet pf ps').
  { intros o ps' Hs' Hf Hl Hm. destruct (flat_update _ o _ Hw Hf Hl Hm) as [E _]. rewrite (made_flat pf ps' (proj2 Hs')). auto. }
  assert (FO : forall v, render (tree (tok pf v)) = flat (content (tree (tok pf v)))) by (intro v; rewrite content_tree; reflexivity).
  destruct c as [k v|k v|k v|k|k n]; unfold do_cmd; cbn [step do_cmd_at cmd_ok app] in *.
  - destruct (assoc k ps) as [u|] eqn:E.
    + rewrite (set_string_call pf _ v [k] Hc). apply U; [apply sheet_set; assumption|apply FO|split; [discriminate|apply tok_fit, Hc]|].
      cbn [meaning]. unfold obj at 1. cbn [d_modify d_child]. rewrite mv_assoc, E. cbn [option_map d_const d_set_child]. rewrite content_tree, mv_set. reflexivity.
    + apply (LookupFails.updates_fail _ [k] _ (obj_get_absent pf ps k Hs E) _ k None 0%Z).
  - destruct Hc as (Hk & Hk' & Hv). destruct (tok_fit pf v Hv) as (Ev & Wv & _). unfold StoreString. rewrite <- Ev. change (Store (flat (obj pf ps)) k (Some (flat (tok pf v))) []) with (call (OStore [] k (tree (tok pf v))) (flat (obj pf ps))).
    destruct (assoc k ps) as [u|] eqn:E; (apply U; [|apply FO| |]).
    + apply sheet_set; assumption.
    + split; [exact Wv|]. split; [exact Hk'|]. left. cbn [plain d_val app]. rewrite content_tree, obj_lookup, E. discriminate.
    + cbn [meaning d_modify]. unfold obj at 1. cbn [d_store]. rewrite mv_assoc, E. cbn [option_map]. rewrite content_tree, mv_set. reflexivity.
    + apply sheet_snoc; assumption.
    + split; [exact Wv|]. split; [exact Hk'|]. right. apply obj_absent; assumption.
    + cbn [meaning d_modify]. unfold obj at 1. cbn [d_store]. rewrite mv_assoc, E. cbn [option_map]. rewrite content_tree. unfold obj. rewrite mv_app. reflexivity.
  - destruct Hc as (Hk & Hk' & Hv). destruct (tok_fit pf v Hv) as (Ev & Wv & _). unfold AddKeyValueString. destruct k as [|k0 k1] eqn:Ek; [contradiction|]. rewrite <- Ek in *. clear Ek k0 k1. rewrite <- Ev.
    change (AddKeyValue (flat (obj pf ps)) k (Some (flat (tok pf v))) []) with (call (OAddKV [] k (tree (tok pf v))) (flat (obj pf ps))).
    destruct (assoc k ps) as [u|] eqn:E.
    + cbn [call]. rewrite <- plain_text. apply (add_kv_present _ [] k _ (tok pf u)); [apply plain_wf, Hw| |eexists; eexists; reflexivity]. cbn [plain d_val app]. rewrite content_tree, obj_lookup, E. reflexivity.
    + apply U; [apply sheet_snoc; assumption|apply FO| |].
      * split; [exact Wv|]. split; [exact Hk'|]. left. apply obj_absent; assumption.
      * cbn [meaning d_modify]. unfold obj at 1. cbn [d_add]. rewrite mv_assoc, E. cbn [option_map]. rewrite content_tree. unfold obj. rewrite mv_app. reflexivity.
  - destruct (assoc k ps) as [u|] eqn:E.
    + change (Delete (flat (obj pf ps)) [k]) with (call (ODelete [] k) (flat (obj pf ps))). apply U; [apply sheet_remove, Hs|exact I|exact I|].
      cbn [meaning d_modify]. unfold obj at 1. cbn [d_remove]. rewrite mv_assoc, E. cbn [option_map]. rewrite mv_remove. reflexivity.
    + apply (LookupFails.updates_fail _ [k] _ (obj_get_absent pf ps k Hs E) [] k None 0%Z).
  - destruct Hc as [Hn Hn']. destruct (assoc n ps) as [u|] eqn:En.
    + rewrite <- plain_text. apply (setkey_taken _ [] k n (tok pf u)); [apply plain_wf, Hw|exact Hn|]. cbn [plain d_val app]. rewrite content_tree, obj_lookup, En. reflexivity.
    + destruct (assoc k ps) as [u|] eqn:E.
      * change (SetKey (flat (obj pf ps)) n [k]) with (call (OSetKey [] k n) (flat (obj pf ps))). apply U; [apply sheet_rename; assumption|exact I| |].
        -- split; [exact Hn'|]. split; [exact Hn|]. apply obj_absent; assumption.
        -- cbn [meaning d_modify]. unfold obj at 1. cbn [d_rename]. rewrite !mv_assoc, E, En. cbn [option_map]. rewrite mv_rename. reflexivity.
      * apply (proj2 (proj2 (LookupFails.set_key_fails (flat (obj pf ps)) n [] k Hn)) (EKeyNotFound n)); [apply obj_get_absent; assumption|reflexivity|apply obj_get_absent; assumption].
Qed.

Theorem sheet_history pf cs : Forall (cmd_ok pf) cs -> forall ps, sheet pf ps ->
  run_calls (do_cmd pf) cs (MakeJsonWithMap pf (nonnil ps)) = Some (MakeJsonWithMap pf (nonnil (steps cs ps))) /\ sheet pf (steps cs ps).
Proof.
  induction 1 as [|c cs Hc _ IH]; intros ps Hs; cbn [run_calls steps]; [auto|]. pose proof (sheet_step pf c ps Hs Hc) as S. destruct (step c ps) as [ps'|e].
  - destruct S as [-> Hs']. apply IH, Hs'.
  - rewrite S. apply IH, Hs.
Qed.

(** Reading gives the map back. *)
Lemma last_assoc_nodup {V} k (ps : list (bytes * V)) : NoDup (map fst ps) -> SpecIter.last_assoc k ps = assoc k ps.
Proof.
  unfold SpecIter.last_assoc. induction ps as [|[k' v] ps IH]; intro H; [reflexivity|]. cbn [map fst] in H. inversion H as [|? ? Hn Hd]; subst. cbn [rev assoc].
  specialize (IH Hd).
  assert (F : forall l r, find (fun p : bytes * V => bytes_eqb (fst p) k) (l ++ r) = match find (fun p => bytes_eqb (fst p) k) l with Some x => Some x | None => find (fun p => bytes_eqb (fst p) k) r end).
  { clear. induction l as [|a l IH]; intro r; [reflexivity|]. cbn [app find]. destruct (bytes_eqb (fst a) k); [reflexivity|apply IH]. }
  rewrite F. cbn [find fst]. destruct (bytes_eqb k' k) eqn:E.
  - apply bytes_eqb_eq in E. subst k'. assert (E : assoc k ps = None) by (apply assoc_none, Hn). rewrite E in IH. destruct (find _ (rev ps)); [discriminate IH|reflexivity].
  - rewrite <- IH. destruct (find _ (rev ps)); reflexivity.
Qed.
Lemma obj_long pf ps : ps <> [] -> flat (obj pf ps) <> b "{}" /\ flat (obj pf ps) <> b "[]".
Proof.
  intro H. destruct ps as [|[k v] ps]; [contradiction|]. pose proof (flat_long (obj pf ((k, v) :: ps)) [] k (tok pf v) (mv (tok pf) ps) eq_refl) as E. rewrite plain_text in E. apply bytes_eqb_neq in E.
  split; [exact E|]. unfold flat, obj. cbn [tree]. rewrite render_obj. intro X. discriminate X.
Qed.
Theorem sheet_reads pf ps : sheet pf ps -> ps <> [] -> let t := MakeJsonWithMap pf (nonnil ps) in
  Iter.GetKeys t [] = Ok (map fst ps) /\ Iter.GetValues t [] = Ok (map snd ps) /\ Iter.GetKeysValues t [] = Ok (map fst ps, map snd ps) /\ Iter.Length t [] = Ok (length ps) /\
  (exists m, Iter.GetMap t [] = Ok (Some m) /\ NoDup (map fst m) /\ forall k, SpecIter.assoc k m = assoc k ps) /\
  (forall k, Get t [k] = match assoc k ps with Some v => Ok v | None => Err (EKeyNotFound k) end) /\
  (forall ks, Check ks t = Ok true <-> incl ks (map fst ps)) /\
  (forall ks, CheckAbs ks t = Ok true <-> Permutation ks (map fst ps)).
Proof.
  intros Hs Hne. cbv zeta. rewrite (made_flat pf ps (proj2 Hs)). pose proof (obj_wf pf ps Hs) as Hw. destruct (obj_long pf ps Hne) as [N1 N2].
  destruct (flat_object unit (obj pf ps) [] (mv (tok pf) ps) Hw eq_refl) as (K & V & KV & L & _); [destruct ps; [contradiction|discriminate]|].
  rewrite mv_fst in K, KV. rewrite (obj_shown pf ps (proj2 Hs)) in V, KV. unfold mv in L. rewrite map_length in L.
  assert (G : forall k, Get (flat (obj pf ps)) [k] = match assoc k ps with Some v => Ok v | None => Err (EKeyNotFound k) end).
  { intro k. destruct (assoc k ps) as [v|] eqn:E; [apply obj_get|apply obj_get_absent]; assumption. }
  split; [exact K|]. split; [exact V|]. split; [exact KV|]. split; [exact L|]. split; [|split; [exact G|split]].
  - destruct (IterMisc.get_map_obj (plain (obj pf ps)) [] [] [] (map (fun m => Mem [] (fst m) [] [] (tree (snd m)) []) (mv (tok pf) ps)) []) as (m & E & M1 & M2).
    + apply plain_wf, Hw.
    + constructor.
    + destruct ps; [contradiction|discriminate].
    + apply Forall_removelast, tight_tree.
    + left. reflexivity.
    + exists m. rewrite plain_text in E. split; [exact E|]. split; [exact M1|]. intro k. rewrite (M2 k), tree_pairs.
      rewrite <- (last_assoc_nodup k ps (proj1 (proj1 Hs))). f_equal. unfold mv. rewrite map_map. cbn [fst snd]. rewrite <- (map_id ps) at 2. apply map_ext_in. intros [k' v'] Hi. cbn [fst snd].
      destruct Hs as [_ Hs]. rewrite Forall_forall in Hs. destruct (tok_fit pf v' (Hs v' (in_map snd _ _ Hi))) as (_ & _ & ->). reflexivity.
  - intro ks. rewrite check_spec, Forall_forall. split; intros H k Hk.
    + destruct (H k Hk) as [v Hv]. rewrite G in Hv. destruct (assoc k ps) eqn:E; [|discriminate Hv]. destruct (in_dec (list_eq_dec N.eq_dec) k (map fst ps)) as [Hi|Hi]; [exact Hi|].
      apply assoc_none in Hi. rewrite Hi in E. discriminate E.
    + rewrite G. destruct (assoc k ps) as [v|] eqn:E; [exists v; reflexivity|]. apply assoc_none in E. exfalso. apply E, H, Hk.
  - intro ks. rewrite <- plain_text in N1 |- *.
    rewrite (check_abs_set (plain (obj pf ps)) _ _ ks (plain_wf _ Hw) eq_refl N1); rewrite tree_keys, mv_fst; [|apply Hs].
    split.
    + intros [H1 H2]. apply NoDup_Permutation; [exact H1|apply Hs|]. intro x. symmetry. apply H2.
    + intro H. split; [eapply Permutation_NoDup; [symmetry; exact H|apply Hs]|]. intro k. split; apply Permutation_in; [symmetry; exact H|exact H].
Qed.

(** The schemes. *)
Lemma usable_cons k ks : usable (k :: ks) -> k <> [] /\ str_ok k = true /\ ~ In k ks /\ usable ks.
Proof. intros [H1 H2]. inversion H1; inversion H2; subst. repeat split; tauto. Qed.
Lemma add_again pf t k v : AddKeyValueString pf t k (formatType pf v) [] = AddKeyValueString pf t k v [].
Proof. unfold AddKeyValueString. rewrite formatType_idem. reflexivity. Qed.
Lemma assoc_fit pf ps k v : sheet pf ps -> assoc k ps = Some v -> item pf v.
Proof.
  intros [_ Hs] H. rewrite Forall_forall in Hs. apply Hs. clear - H. induction ps as [|[k' u] ps IH]; [discriminate|]. cbn [assoc] in H.
  destruct (bytes_eqb k' k); [injection H as <-; left; reflexivity|right; auto].
Qed.
Lemma get_string t p : GetString t p = Get t p.
Proof. reflexivity. Qed.
Lemma add_cmd pf qs k v : sheet pf qs -> k <> [] -> str_ok k = true -> ~ In k (map fst qs) -> item pf v ->
  AddKeyValueString pf (MakeJsonWithMap pf (nonnil qs)) k (formatType pf v) [] = Done (MakeJsonWithMap pf (nonnil (qs ++ [(k, v)]))) /\ sheet pf (qs ++ [(k, v)]).
Proof.
  intros Hq H1 H2 H3 H4. rewrite add_again. apply assoc_none in H3. pose proof (sheet_step pf (CAdd k v) qs Hq (conj H1 (conj H2 H4))) as S. cbn [step] in S. rewrite H3 in S. exact S.
Qed.
Theorem sheet_mutate_abs pf ps ks : sheet pf ps -> usable ks -> incl ks (map fst ps) ->
  MutateJsonAbs pf ks (MakeJsonWithMap pf (nonnil ps)) = Ok (MakeJsonWithMap pf (nonnil (map (fun k => (k, value_or_empty ps k)) ks))).
Proof.
  intros Hs Hk Hi. unfold MutateJsonAbs. change (b "{}") with (MakeJsonWithMap pf (nonnil [])). rewrite (made_flat pf ps (proj2 Hs)).
  assert (Hq : sheet pf []) by (repeat constructor). revert Hq. change (map (fun k => (k, value_or_empty ps k)) ks) with ([] ++ map (fun k => (k, value_or_empty ps k)) ks).
  assert (Hd : forall k, In k ks -> ~ In k (map fst (@nil (bytes * bytes)))) by (intros k _ []). revert Hd. generalize (@nil (bytes * bytes)).
  induction ks as [|k ks IH]; intros qs Hd Hq; cbn [mutate_abs map]; [rewrite app_nil_r; reflexivity|].
  apply usable_cons in Hk. destruct Hk as (K1 & K2 & K3 & K4). rewrite get_string.
  destruct (assoc k ps) as [v|] eqn:E. 2:{ apply assoc_none in E. exfalso. apply E, Hi. left. reflexivity. }
  rewrite (obj_get pf ps k v Hs E). cbn [bind].
  destruct (add_cmd pf qs k v Hq K1 K2 (Hd k (or_introl eq_refl)) (assoc_fit _ _ _ _ Hs E)) as [-> Hq']. unfold value_or_empty at 1. rewrite E.
  rewrite IH; [rewrite <- app_assoc; reflexivity|exact K4|intros x Hx; apply Hi; right; exact Hx| |exact Hq'].
  intros x Hx. rewrite map_app, in_app_iff. cbn [map fst In]. intros [H|[H|[]]]; [exact (Hd x (or_intror Hx) H)|]. subst x. contradiction.
Qed.
Theorem sheet_mutate pf ps ks : pf [] = false -> sheet pf ps -> usable ks ->
  MutateJson pf ks (MakeJsonWithMap pf (nonnil ps)) = Ok (Some (MakeJsonWithMap pf (nonnil (map (fun k => (k, value_or_empty ps k)) ks)))).
Proof.
  intros Hpf Hs Hk. unfold MutateJson. change (b "{}") with (MakeJsonWithMap pf (nonnil [])). rewrite (made_flat pf ps (proj2 Hs)).
  assert (He : item pf []) by (left; split; [reflexivity|]; split; [rewrite Hpf; discriminate|reflexivity]).
  assert (Hq : sheet pf []) by (repeat constructor). revert Hq. change (map (fun k => (k, value_or_empty ps k)) ks) with ([] ++ map (fun k => (k, value_or_empty ps k)) ks).
  assert (Hd : forall k, In k ks -> ~ In k (map fst (@nil (bytes * bytes)))) by (intros k _ []). revert Hd. generalize (@nil (bytes * bytes)).
  induction ks as [|k ks IH]; intros qs Hd Hq; cbn [mutate map]; [rewrite app_nil_r; reflexivity|].
  apply usable_cons in Hk. destruct Hk as (K1 & K2 & K3 & K4). rewrite get_string. unfold value_or_empty at 1.
  assert (D : forall v x, In x ks -> ~ In x (map fst (qs ++ [(k, v)]))).
  { intros v x Hx. rewrite map_app, in_app_iff. cbn [map fst In]. intros [H|[H|[]]]; [exact (Hd x (or_intror Hx) H)|]. subst x. contradiction. }
  destruct (assoc k ps) as [v|] eqn:E.
  - rewrite (obj_get pf ps k v Hs E). destruct (add_cmd pf qs k v Hq K1 K2 (Hd k (or_introl eq_refl)) (assoc_fit _ _ _ _ Hs E)) as [-> Hq'].
    rewrite IH; [rewrite <- app_assoc; reflexivity|exact K4|apply D|exact Hq'].
  - rewrite (obj_get_absent pf ps k Hs E). destruct (add_cmd pf qs k [] Hq K1 K2 (Hd k (or_introl eq_refl)) He) as [-> Hq'].
    rewrite IH; [rewrite <- app_assoc; reflexivity|exact K4|apply D|exact Hq'].
Qed.

(** ** Arrays *)
Lemma d_modify_app q : forall c r f, d_modify c (q ++ r) f = d_modify c q (fun x => d_modify x r f).
Proof. induction q as [|y q IH]; intros c r f; cbn [app d_modify]; [reflexivity|]. destruct (d_child c y); [rewrite IH|]; reflexivity. Qed.
Section arrays.
  Context {A : Type} (P : A -> Prop) (enc : A -> jd) (call_of : acmd A -> bytes -> upd) (Hwf : forall x, P x -> wf (tree (enc x)) = true).
  Context (q : list bytes) (ctx : jd -> jd) (Hctx : forall x, d_lookup (ctx x) q = Some x) (Hmod : forall x g, d_modify (ctx x) q g = option_map ctx (g x))
    (Hcwf : forall x, wf (tree x) = true -> wf (tree (ctx x)) = true).
  Context (Hset : forall i x t, P x -> call_of (ASet i x) t = Set_ t (flat (enc x)) (q ++ [itoa i]))
    (Hadd : forall x t, P x -> call_of (AAdd x) t = Add_ t (flat (enc x)) q)
    (Hins : forall i x t, P x -> if (i <? 0)%Z then exists o, call_of (AInsert i x) t = Fail o EIndexOutOfRange else call_of (AInsert i x) t = Insert t i (flat (enc x)) q)
    (Hdel : forall i t, call_of (ADelete i) t = Delete t (q ++ [itoa i])).
  Let arr xs := DArr (map enc xs).
  Lemma arr_wf xs : Forall P xs -> wf (tree (arr xs)) = true.
  Proof.
    intro H. unfold arr. cbn [tree]. rewrite wf_arr. cbn [ws_ok forallb andb]. rewrite map_map, RfcProofs.forallb_map, forallb_forall. intros x Hx. unfold elem_ok. cbn.
    rewrite Forall_forall in H. rewrite (Hwf x (H x Hx)). reflexivity.
  Qed.
  Lemma set_nth_map (xs : list A) n x : set_nth (map enc xs) n (fun _ => enc x) = map enc (set_nth xs n (fun _ => x)).
  Proof. revert n. induction xs as [|y xs IH]; intros [|n]; cbn [map set_nth]; try reflexivity. f_equal. apply IH. Qed.
  Lemma remove_nth_map (xs : list A) n : remove_nth n (map enc xs) = map enc (remove_nth n xs).
  Proof. revert n. induction xs as [|y xs IH]; intros [|n]; cbn [map remove_nth]; try reflexivity. f_equal. apply IH. Qed.
  Lemma set_nth_ok (xs : list A) n x : P x -> Forall P xs -> Forall P (set_nth xs n (fun _ => x)).
  Proof. intros Hx H. revert n. induction H as [|y xs Hy Hl IH]; intros [|n]; cbn [set_nth]; constructor; try assumption; apply IH. Qed.
  Lemma remove_nth_ok (xs : list A) n : Forall P xs -> Forall P (remove_nth n xs).
  Proof. intros H. revert n. induction H as [|y xs Hy Hl IH]; intros [|n]; cbn [remove_nth]; try constructor; auto. Qed.
  Lemma arr_out xs i : Forall P xs -> in_int64 i = true -> nth_z xs i = None -> exists e, Get (flat (ctx (arr xs))) (q ++ [itoa i]) = Err e.
  Proof.
    intros Hx Hi Hn. rewrite <- plain_text. eexists.
    apply (get_bad_step (plain (ctx (arr xs))) q (itoa i) [] [] (map (fun c => Elem [] (tree c) []) (map enc xs)) (plain_wf _ (Hcwf _ (arr_wf xs Hx))) (flat_lookup _ q (arr xs) (Hctx _))) with (z := i).
    - apply atoi_itoa, Hi.
    - rewrite !nth_z_map, Hn. reflexivity.
  Qed.
  Theorem arr_step c xs : Forall P xs -> acmd_ok P c ->
    match astep c xs with
    | Some xs' => call_of c (flat (ctx (arr xs))) = Done (flat (ctx (arr xs'))) /\ Forall P xs'
    | None => exists o e, call_of c (flat (ctx (arr xs))) = Fail o e
    end.
  Proof.
    intros Hx Hc. pose proof (Hcwf _ (arr_wf xs Hx)) as Hw.
    assert (U : forall o xs', Forall P xs' -> flat_op o -> array_op o -> meaning o (ctx (arr xs)) = Some (ctx (arr xs')) ->
                call o (flat (ctx (arr xs))) = Done (flat (ctx (arr xs'))) /\ Forall P xs').
    { intros o xs' Hx' Hf Hl Hm. destruct (flat_update _ o _ Hw Hf (array_legal _ _ _ Hl Hm) Hm) as [E _]. auto. }
    assert (FO : forall x, render (tree (enc x)) = flat (content (tree (enc x)))) by (intro x; rewrite content_tree; reflexivity).
    assert (NE : forall s, q ++ [s] <> []) by (intros s E; destruct q; discriminate E).
    destruct c as [i x|x|i x|i]; cbn [astep acmd_ok] in *.
    - destruct Hc as [Hi Hp]. rewrite (Hset i x _ Hp). destruct (nth_z xs i) as [y|] eqn:E.
      + apply (U (OSet (q ++ [itoa i]) (tree (enc x)))); [apply set_nth_ok; assumption|apply FO|split; [apply NE|apply Hwf, Hp]|].
        cbn [meaning]. rewrite d_modify_app, Hmod. unfold arr at 1. cbn [d_modify d_child]. rewrite (atoi_itoa i Hi), nth_z_map, E. cbn [option_map d_const d_set_child]. rewrite (atoi_itoa i Hi), content_tree, set_nth_map. reflexivity.
      + destruct (arr_out xs i Hx Hi E) as (e & G). eexists. exists e. apply (LookupFails.updates_fail _ _ _ G _ [] None 0%Z).
    - rewrite (Hadd x _ Hc). apply (U (OAdd q (tree (enc x)))); [apply Forall_app; split; [exact Hx|constructor; [exact Hc|constructor]]|apply FO|apply Hwf, Hc|].
      cbn [meaning]. rewrite Hmod. unfold arr at 1. cbn [d_append option_map]. unfold arr. rewrite content_tree, map_app. reflexivity.
    - destruct Hc as [Hi Hp]. pose proof (Hins i x (flat (ctx (arr xs))) Hp) as HI. destruct (i <? 0)%Z eqn:Ei.
      + replace (nth_z xs i) with (@None A); [destruct HI as (o & HI); eauto|]. unfold nth_z. destruct (0 <=? i)%Z eqn:E0; [lia|reflexivity].
      + rewrite HI. destruct (nth_z xs i) as [y|] eqn:E.
        * apply (U (OInsert q i (tree (enc x)))).
          -- rewrite <- (firstn_skipn (Z.to_nat i) xs) in Hx. apply Forall_app in Hx. destruct Hx. apply Forall_app. split; [assumption|]. constructor; assumption.
          -- apply FO.
          -- split; [apply Hwf, Hp|unfold in_int64 in Hi; lia].
          -- cbn [meaning]. rewrite Hmod. unfold arr at 1. cbn [d_insert]. rewrite nth_z_map, E, content_tree. cbn [option_map]. unfold arr. rewrite map_app, firstn_map. cbn [option_map map]. rewrite skipn_map. reflexivity.
        * eexists. eexists. rewrite <- plain_text. apply (insert_range (plain (ctx (arr xs))) q i _ [] (map (fun c => Elem [] (tree c) []) (map enc xs))); [apply plain_wf, Hw|exact Hi|apply (flat_lookup _ q (arr xs)), Hctx|].
          rewrite !nth_z_map, E. reflexivity.
    - rewrite Hdel. destruct (nth_z xs i) as [y|] eqn:E.
      + change (Delete ?t (q ++ [itoa i])) with (call (ODelete q (itoa i)) t). apply U; [apply remove_nth_ok, Hx|exact I|exact I|].
        cbn [meaning]. rewrite Hmod. unfold arr at 1. cbn [d_remove]. rewrite (atoi_itoa i Hc), nth_z_map, E. cbn [option_map]. rewrite remove_nth_map. reflexivity.
      + destruct (arr_out xs i Hx Hc E) as (e & G). eexists. exists e. apply (LookupFails.updates_fail _ _ _ G [] [] None 0%Z).
  Qed.
  Theorem arr_history cs : Forall (acmd_ok P) cs -> forall xs, Forall P xs ->
    run_calls call_of cs (flat (ctx (arr xs))) = Some (flat (ctx (arr (asteps cs xs)))) /\ Forall P (asteps cs xs).
  Proof.
    induction 1 as [|c cs Hc _ IH]; intros xs Hx; cbn [run_calls asteps]; [auto|]. pose proof (arr_step c xs Hx Hc) as S. destruct (astep c xs) as [xs'|].
    - destruct S as [-> Hx']. apply IH, Hx'.
    - destruct S as (o & e & ->). apply IH, Hx.
  Qed.
End arrays.

Lemma strings_flat pf ss : Forall (item pf) ss -> MakeArrayString pf (nonnil ss) = flat (DArr (map (tok pf) ss)).
Proof.
  intro H. destruct ss as [|s ss]; [reflexivity|]. rewrite <- made_array_bytes by discriminate. cbn [nonnil MakeArrayString MakeArrayBytes]. rewrite map_map. f_equal. apply map_ext_in.
  intros x Hx. rewrite Forall_forall in H. symmetry. apply tok_fit, H, Hx.
Qed.
Lemma ints_flat zs : MakeArrayInt (nonnil zs) = flat (DArr (map (fun z => DScalar (itoa z)) zs)).
Proof. destruct zs as [|z zs]; [reflexivity|]. apply made_array_int. discriminate. Qed.
Lemma bools_flat bs : MakeArrayBool (nonnil bs) = flat (DArr (map (fun z => DScalar (bool_text z)) bs)).
Proof. destruct bs as [|z zs]; [reflexivity|]. apply made_array_bool. discriminate. Qed.
Lemma int_scalar z : wf (tree (DScalar (itoa z))) = true.
Proof. apply itoa_token. Qed.
Lemma bool_scalar z : wf (tree (DScalar (bool_text z))) = true.
Proof. destruct z; reflexivity. Qed.

Section arrays_at.
  Context (q : list bytes) (ctx : jd -> jd) (Hctx : forall x, d_lookup (ctx x) q = Some x) (Hmod : forall x g, d_modify (ctx x) q g = option_map ctx (g x))
    (Hcwf : forall x, wf (tree x) = true -> wf (tree (ctx x)) = true).
  Theorem strings_at pf cs ss : Forall (acmd_ok (item pf)) cs -> Forall (item pf) ss ->
    run_calls (do_string_at pf q) cs (flat (ctx (DArr (map (tok pf) ss)))) = Some (flat (ctx (DArr (map (tok pf) (asteps cs ss))))) /\ Forall (item pf) (asteps cs ss).
  Proof.
    intros Hc Hs. apply (arr_history (item pf) (tok pf) (do_string_at pf q) (fun x Hx => proj1 (proj2 (tok_fit pf x Hx))) q ctx Hctx Hmod Hcwf); try assumption.
    - intros i x t Hx. cbn [do_string_at]. unfold SetString. rewrite (proj1 (tok_fit pf x Hx)). reflexivity.
    - intros x t Hx. cbn [do_string_at]. unfold AddString. rewrite (proj1 (tok_fit pf x Hx)). reflexivity.
    - intros i x t Hx. cbn [do_string_at]. unfold InsertString. rewrite (proj1 (tok_fit pf x Hx)). destruct (i <? 0)%Z; [eexists|]; reflexivity.
    - reflexivity.
  Qed.
  Theorem ints_at cs zs : Forall (acmd_ok (fun _ => True)) cs ->
    run_calls (do_int_at q) cs (flat (ctx (DArr (map (fun z => DScalar (itoa z)) zs)))) = Some (flat (ctx (DArr (map (fun z => DScalar (itoa z)) (asteps cs zs))))).
  Proof.
    intro Hc. apply (arr_history (fun _ : Z => True) (fun z => DScalar (itoa z)) (do_int_at q) (fun z _ => int_scalar z) q ctx Hctx Hmod Hcwf); try assumption; try reflexivity.
    - intros i x t _. cbn [do_int_at]. unfold InsertInt, neg_index. destruct (i <? 0)%Z; [eexists|]; reflexivity.
    - apply Forall_forall. auto.
  Qed.
  Theorem bools_at cs zs : Forall (acmd_ok (fun _ => True)) cs ->
    run_calls (do_bool_at q) cs (flat (ctx (DArr (map (fun z => DScalar (bool_text z)) zs)))) = Some (flat (ctx (DArr (map (fun z => DScalar (bool_text z)) (asteps cs zs))))).
  Proof.
    intro Hc. apply (arr_history (fun _ : bool => True) (fun z => DScalar (bool_text z)) (do_bool_at q) (fun z _ => bool_scalar z) q ctx Hctx Hmod Hcwf); try assumption; try reflexivity.
    - intros i x t _. cbn [do_bool_at]. unfold InsertBool, neg_index. destruct (i <? 0)%Z; [eexists|]; reflexivity.
    - apply Forall_forall. auto.
  Qed.
End arrays_at.
Lemma root_mod x (g : jd -> option jd) : d_modify x [] g = option_map (fun x => x) (g x).
Proof. cbn [d_modify]. destruct (g x); reflexivity. Qed.
Theorem strings_history pf cs ss : Forall (acmd_ok (item pf)) cs -> Forall (item pf) ss ->
  run_calls (do_string pf) cs (MakeArrayString pf (nonnil ss)) = Some (MakeArrayString pf (nonnil (asteps cs ss))) /\ Forall (item pf) (asteps cs ss).
Proof.
  intros Hc Hs. destruct (strings_at [] (fun x => x) (fun x => eq_refl) root_mod (fun x H => H) pf cs ss Hc Hs) as [E F].
  rewrite (strings_flat pf ss Hs), (strings_flat pf _ F). auto.
Qed.
Theorem ints_history cs zs : Forall (acmd_ok (fun _ => True)) cs ->
  run_calls do_int cs (MakeArrayInt (nonnil zs)) = Some (MakeArrayInt (nonnil (asteps cs zs))).
Proof. intro Hc. rewrite !ints_flat. exact (ints_at [] (fun x => x) (fun x => eq_refl) root_mod (fun x H => H) cs zs Hc). Qed.
Theorem bools_history cs zs : Forall (acmd_ok (fun _ => True)) cs ->
  run_calls do_bool cs (MakeArrayBool (nonnil zs)) = Some (MakeArrayBool (nonnil (asteps cs zs))).
Proof. intro Hc. rewrite !bools_flat. exact (bools_at [] (fun x => x) (fun x => eq_refl) root_mod (fun x H => H) cs zs Hc). Qed.

Theorem slices pf :
  (forall cs ss, Forall (acmd_ok (item pf)) cs -> Forall (item pf) ss -> let ss' := asteps cs ss in
     run_calls (do_string pf) cs (MakeArrayString pf (nonnil ss)) = Some (MakeArrayString pf (nonnil ss')) /\
     (ss' <> [] -> Iter.GetStringArray (MakeArrayString pf (nonnil ss')) [] = Ok ss')) /\
  (forall cs zs, Forall (acmd_ok (fun z => in_int64 z = true)) cs -> Forall (fun z => in_int64 z = true) zs -> let zs' := asteps cs zs in
     run_calls do_int cs (MakeArrayInt (nonnil zs)) = Some (MakeArrayInt (nonnil zs')) /\
     (zs' <> [] -> Iter.GetIntArray (MakeArrayInt (nonnil zs')) [] = Ok zs')) /\
  (forall cs vs, Forall (acmd_ok (fun _ => True)) cs -> let vs' := asteps cs vs in
     run_calls do_bool cs (MakeArrayBool (nonnil vs)) = Some (MakeArrayBool (nonnil vs')) /\
     (vs' <> [] -> Iter.GetBoolArray (MakeArrayBool (nonnil vs')) [] = Ok vs')).
Proof.
  split; [|split].
  - intros cs ss Hc Hs. destruct (strings_history pf cs ss Hc Hs) as [E F]. cbv zeta. split; [exact E|]. intro N. destruct (asteps cs ss) as [|s l] eqn:E1; [contradiction|].
    rewrite (strings_flat pf _ F).
    assert (W : wf (tree (DArr (map (tok pf) (s :: l)))) = true) by (apply (arr_wf (item pf) (tok pf)); [intros x Hx; apply tok_fit, Hx|exact F]).
    rewrite (proj1 (flat_array unit unit (fun _ => None) _ [] _ W eq_refl ltac:(discriminate))), map_map. f_equal. rewrite <- (map_id (s :: l)) at 2. apply map_ext_in.
    intros x Hx. rewrite Forall_forall in F. apply tok_fit, F, Hx.
  - intros cs zs Hc Hz. cbv zeta. split.
    + apply ints_history. eapply Forall_impl; [|exact Hc]. intros c H. destruct c; cbn [acmd_ok] in *; tauto.
    + intro N. assert (F : Forall (fun z => in_int64 z = true) (asteps cs zs)).
      { clear N. revert zs Hz. induction Hc as [|c cs H _ IH]; intros zs Hz; [exact Hz|]. cbn [asteps]. apply IH. destruct c as [i x|x|i x|i]; cbn [astep acmd_ok] in *.
        - destruct (nth_z zs i); [|exact Hz]. apply set_nth_ok; tauto.
        - apply Forall_app. split; [exact Hz|]. repeat constructor. exact H.
        - destruct (nth_z zs i); [|exact Hz]. rewrite <- (firstn_skipn (Z.to_nat i) zs) in Hz. apply Forall_app in Hz. destruct Hz. apply Forall_app. split; [assumption|]. constructor; tauto.
        - destruct (nth_z zs i); [|exact Hz]. apply remove_nth_ok; assumption. }
      destruct (asteps cs zs) as [|s l] eqn:E1; [contradiction|]. apply int_array_round_trip; [discriminate|exact F].
  - intros cs vs Hc. cbv zeta. split; [apply bools_history, Hc|]. intro N. destruct (asteps cs vs) as [|s l] eqn:E1; [contradiction|]. apply bool_array_round_trip. discriminate.
Qed.
