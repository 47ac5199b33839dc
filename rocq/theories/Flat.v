(** Documents without insignificant whitespace: reading, updating and making them (C77). *)
From Coq Require Import String Lia.
From Verif Require Import GoStd Json Spec SpecProofs Focus Domains Core Skip CoreProofs Errors Api ApiProofs Updates Ops History Neat Laws SpecFlat
  SpecIter Iter IterProofs IterObj IterMisc Split Typed TypedProofs Rfc RfcProofs Make MakeProofs Layout.
From Verif Require SpecFormat Format FormatProofs.

Local Open Scope N_scope.

(** ** Trees and contents *)
Lemma strip_tree v : SpecFormat.strip v = tree (content v).
Proof.
  induction v as [s|s|w els IH|w ms IH] using jv_ind'; cbn [SpecFormat.strip content tree]; try reflexivity; rewrite map_map; f_equal;
    apply map_ext_in; intros e He; rewrite Forall_forall in IH; cbn [fst snd]; rewrite (IH e He); reflexivity.
Qed.
Lemma neat_strip v : neat (SpecFormat.strip v).
Proof.
  induction v as [s|s|w els IH|w ms IH] using jv_ind'; cbn [SpecFormat.strip]; try exact I.
  - apply neat_arr. split; [reflexivity|]. apply Forall_map. rewrite Forall_forall in *. intros e He. repeat split. exact (IH e He).
  - apply neat_obj. split; [reflexivity|]. apply Forall_map. rewrite Forall_forall in *. intros e He. repeat split. exact (IH e He).
Qed.
Lemma strip_neat v : neat v -> SpecFormat.strip v = v.
Proof.
  induction v as [s|s|w els IH|w ms IH] using jv_ind'; intro H; try reflexivity; cbn [SpecFormat.strip].
  - apply neat_arr in H. destruct H as [-> H]. f_equal. rewrite <- (map_id els) at 2. apply map_ext_in. intros [a v c] He. rewrite Forall_forall in *.
    destruct (H _ He) as (P1 & P2 & P3). cbn [e_pre e_val e_post] in *. subst. f_equal. exact (IH _ He P2).
  - apply neat_obj in H. destruct H as [-> H]. f_equal. rewrite <- (map_id ms) at 2. apply map_ext_in. intros [a k c c' v e] He. rewrite Forall_forall in *.
    destruct (H _ He) as (P1 & P2 & P3 & P4 & P5). cbn [m_pre m_key m_mid m_mid2 m_val m_post] in *. subst. f_equal. exact (IH _ He P4).
Qed.
Fixpoint jd_rect' (P : jd -> Prop) (Hs : forall s, P (DScalar s)) (Ht : forall s, P (DString s))
  (Ha : forall cs, Forall P cs -> P (DArr cs)) (Ho : forall ms, Forall (fun m => P (snd m)) ms -> P (DObj ms)) (c : jd) : P c :=
  match c with
  | DScalar s => Hs s
  | DString s => Ht s
  | DArr cs => Ha cs ((fix go l := match l return Forall P l with [] => Forall_nil _ | x :: r => Forall_cons x (jd_rect' P Hs Ht Ha Ho x) (go r) end) cs)
  | DObj ms => Ho ms ((fix go l := match l return Forall (fun m => P (snd m)) l with [] => Forall_nil _ | x :: r => Forall_cons x (jd_rect' P Hs Ht Ha Ho (snd x)) (go r) end) ms)
  end.
Lemma content_tree c : content (tree c) = c.
Proof.
  induction c as [s|s|cs IH|ms IH] using jd_rect'; cbn [tree content]; try reflexivity; rewrite map_map; f_equal.
  - rewrite <- (map_id cs) at 2. apply map_ext_in. intros x Hx. rewrite Forall_forall in IH. exact (IH x Hx).
  - rewrite <- (map_id ms) at 2. apply map_ext_in. intros [k x] Hx. rewrite Forall_forall in IH. cbn [m_key m_val fst snd]. f_equal. exact (IH _ Hx).
Qed.
Lemma neat_tree c : neat (tree c).
Proof. rewrite <- (content_tree c), <- strip_tree. apply neat_strip. Qed.
Lemma tree_neat v : neat v -> tree (content v) = v.
Proof. intro H. rewrite <- strip_tree. apply strip_neat, H. Qed.
Definition plain (c : jd) : doc := Doc [] (tree c) [].
Lemma plain_text c : text (plain c) = flat c.
Proof. unfold text, plain, flat. cbn. apply app_nil_r. Qed.
Lemma plain_wf c : wf (tree c) = true -> wf_doc (plain c) = true.
Proof. intro H. unfold wf_doc, plain. cbn. rewrite H. reflexivity. Qed.
Lemma bare_shown c : bare (tree c) = shown c.
Proof. destruct c; reflexivity. Qed.

Theorem flatten_flat d : wf_doc d = true ->
  Format.Flatten (text d) = flat (content (d_val d)) /\ wf (tree (content (d_val d))) = true.
Proof.
  intro H. rewrite (FormatProofs.flatten_doc d H). unfold flat. rewrite <- strip_tree. split; [reflexivity|]. apply FormatProofs.strip_wf, wf_doc_val, H.
Qed.

(** ** Reading *)
Lemma flat_lookup c p x : d_lookup c p = Some x -> lookup (d_val (plain c)) p = Some (tree x).
Proof.
  intro H. rewrite <- (content_tree c), lookup_content in H. cbn [plain d_val]. destruct (lookup (tree c) p) as [u|] eqn:E; [|discriminate]. injection H as <-.
  rewrite (tree_neat u); [reflexivity|]. exact (neat_lookup p _ _ (neat_tree c) E).
Qed.
Lemma flat_long c p k x ms : d_lookup c p = Some (DObj ((k, x) :: ms)) -> bytes_eqb (text (plain c)) (b "{}") = false.
Proof.
  intros Hl. pose proof (flat_lookup c p _ Hl) as L. destruct (lookup_focus _ _ _ L) as (pre & post & F). apply focus_render in F. cbn [plain d_val] in F.
  rewrite plain_text. unfold flat. rewrite F. apply bytes_eqb_neq. change (b "{}") with [123; 125]. intro E. apply (f_equal (@length N)) in E. rewrite !app_length in E.
  cbn [tree] in E. rewrite render_obj in E. cbn [map join fst snd] in E. unfold mem_text in E. cbn [m_pre m_key m_mid m_mid2 m_val m_post] in E.
  destruct ms; cbn [map join] in E; cbn [length app] in E; repeat (rewrite ?app_length in E; cbn [length app] in E); lia.
Qed.

Theorem flat_get c p x : wf (tree c) = true -> p <> [] -> d_lookup c p = Some x -> Get (flat c) p = Ok (shown x).
Proof. intros Hw Hp Hl. rewrite <- plain_text, <- bare_shown. apply get_present; [apply plain_wf, Hw|exact Hp|apply flat_lookup, Hl]. Qed.
Lemma tight_tree ms : Forall tight_m (map (fun m => Mem [] (fst m) [] [] (tree (snd m)) []) ms) /\ Forall tight (map (fun m => Mem [] (fst m) [] [] (tree (snd m)) []) ms).
Proof. split; apply Forall_map, Forall_forall; intros m _; [right; left; reflexivity|left; reflexivity]. Qed.
Lemma tree_keys ms : keys (map (fun m => Mem [] (fst m) [] [] (tree (snd m)) []) ms) = map fst ms.
Proof. unfold keys. rewrite map_map. reflexivity. Qed.
Lemma tree_values ms : values (map (fun m => Mem [] (fst m) [] [] (tree (snd m)) []) ms) = map (fun m => shown (snd m)) ms.
Proof. unfold values. rewrite map_map. apply map_ext. intro m. apply bare_shown. Qed.
Lemma tree_pairs ms : pairs (map (fun m => Mem [] (fst m) [] [] (tree (snd m)) []) ms) = map (fun m => (fst m, shown (snd m))) ms.
Proof. unfold pairs. rewrite map_map. apply map_ext. intro m. cbn [m_key m_val]. rewrite bare_shown. reflexivity. Qed.
Lemma tree_items cs : items (map (fun c => Elem [] (tree c) []) cs) = map shown cs.
Proof. unfold items. rewrite map_map. apply map_ext. intro m. apply bare_shown. Qed.
Lemma Forall_removelast {A} (P : A -> Prop) l : Forall P l -> Forall P (removelast l).
Proof. intro H. induction H as [|x l Hx Hl IH]; [constructor|]. cbn [removelast]. destruct l; [constructor|]. constructor; assumption. Qed.

Theorem flat_object (St : Type) c p ms : wf (tree c) = true -> d_lookup c p = Some (DObj ms) -> ms <> [] ->
  GetKeys (flat c) p = Ok (map fst ms) /\ GetValues (flat c) p = Ok (map (fun m => shown (snd m)) ms) /\
  GetKeysValues (flat c) p = Ok (map fst ms, map (fun m => shown (snd m)) ms) /\ Length (flat c) p = Ok (length ms) /\
  (forall (cb : St -> bytes -> bytes -> St * (bool * option err)) s,
     IterateKeyValue (flat c) cb p s =
     let ps := map (fun m => (fst m, shown (snd m))) ms in IDone (fst (visit (uncurry2 cb) ps s)) (snd (visit (uncurry2 cb) (removelast ps) s))).
Proof.
  intros Hw Hl Hne. pose proof (plain_wf c Hw) as HW. pose proof (flat_lookup c p _ Hl) as L. cbn [tree] in L. destruct (tight_tree ms) as [T1 T2].
  assert (N : map (fun m => Mem [] (fst m) [] [] (tree (snd m)) []) ms <> []) by (destruct ms; [contradiction|discriminate]).
  rewrite <- plain_text. split; [|split; [|split; [|split]]].
  - rewrite (get_keys _ p _ _ HW L), tree_keys. destruct ms as [|[k x] ms]; [contradiction|]. rewrite (flat_long c p k x ms Hl). reflexivity.
  - rewrite (get_values _ p _ _ HW L N T1), tree_values. reflexivity.
  - rewrite (get_keys_values _ p _ _ HW L N T1), tree_values, tree_keys. reflexivity.
  - rewrite (length_ok _ p _ HW L eq_refl (or_intror eq_refl)). cbn [size]. rewrite map_length. reflexivity.
  - intros cb s. cbv zeta. rewrite (iterate_kv_tight cb _ p _ _ s HW L N (Forall_removelast _ _ T2)), tree_pairs. reflexivity.
Qed.
Lemma tight_elems cs : tight_e [] (map (fun c => Elem [] (tree c) []) cs).
Proof. destruct cs as [|c cs]; [exact I|]. cbn [map tight_e]. split; [right; left; reflexivity|]. apply Forall_map, Forall_forall. intros x _. right. left. reflexivity. Qed.

Theorem flat_array (St F : Type) (pf : bytes -> option F) c p cs : wf (tree c) = true -> d_lookup c p = Some (DArr cs) -> cs <> [] ->
  GetStringArray (flat c) p = Ok (map shown cs) /\
  (forall zs, map atoi (map shown cs) = map Some zs -> GetIntArray (flat c) p = Ok zs) /\
  (forall bs, map unbool (map shown cs) = map Some bs -> GetBoolArray (flat c) p = Ok bs) /\
  (forall fs, map pf (map shown cs) = map Some fs -> GetFloatArray pf (flat c) p = Ok fs) /\
  (p <> [] \/ (2 <= length cs)%nat \/ (2 <= length (flat (hd (DScalar []) cs)))%nat -> Length (flat c) p = Ok (length cs)) /\
  (forall (cb : St -> bytes -> St * (bool * option err)) s,
     IterateArray (flat c) cb p s = IDone (fst (visit cb (map shown cs) s)) (snd (visit cb (map shown cs) s))).
Proof.
  intros Hw Hl Hne. pose proof (plain_wf c Hw) as HW. pose proof (flat_lookup c p _ Hl) as L. cbn [tree] in L. pose proof (tight_elems cs) as T.
  assert (N : map (fun c => Elem [] (tree c) []) cs <> []) by (destruct cs; [contradiction|discriminate]).
  assert (W : whole (plain c) p) by (right; split; reflexivity).
  rewrite <- plain_text. split; [|split; [|split; [|split; [|split]]]].
  - rewrite (get_string_array _ p _ _ HW W L N T), tree_items. reflexivity.
  - intros zs H. apply (get_int_array _ p _ _ zs HW W L N T). rewrite tree_items. exact H.
  - intros zs H. apply (get_bool_array _ p _ _ zs HW W L N T). rewrite tree_items. exact H.
  - intros zs H. apply (get_float_array pf _ p _ _ zs HW W L N T). rewrite tree_items. exact H.
  - intro H. rewrite (length_ok _ p _ HW L eq_refl); [cbn [size]; rewrite map_length; reflexivity|].
    destruct H as [H|[H|H]]; [left; exact H|right|right].
    + destruct cs as [|c1 [|c2 cs]]; cbn [length] in H; try lia. reflexivity.
    + destruct cs as [|c1 [|c2 cs]]; [contradiction| |reflexivity]. cbn [map lone e_val e_post hd] in *. unfold flat in H.
      replace (length (render (tree c1)) =? 1)%nat with false by (symmetry; apply Nat.eqb_neq; lia). reflexivity.
  - intros cb s. rewrite (iterate_array cb _ p _ _ s HW L N), tree_items. symmetry. apply idone_eq.
Qed.

(** ** Updating *)
Definition tidy (o : op) : op :=
  match o with
  | OSet p v => OSet p (tree (content v))
  | OAdd p v => OAdd p (tree (content v))
  | OAddKV p k v => OAddKV p k (tree (content v))
  | OInsert p z v => OInsert p z (tree (content v))
  | OStore p k v => OStore p k (tree (content v))
  | _ => o
  end.
Lemma tree_wf v : wf v = true -> wf (tree (content v)) = true.
Proof. rewrite <- strip_tree. apply FormatProofs.strip_wf. Qed.
Lemma tidy_call o t : flat_op o -> call (tidy o) t = call o t.
Proof. destruct o; cbn [flat_op tidy call]; intro H; try reflexivity; fold (flat (content v)); rewrite <- H; reflexivity. Qed.
Lemma tidy_meaning o c : meaning (tidy o) c = meaning o c.
Proof. destruct o; cbn [tidy meaning]; rewrite ?content_tree; reflexivity. Qed.
Lemma tidy_legal o d : legal d o -> legal d (tidy o).
Proof. destruct o; cbn [tidy legal]; try tauto; pose proof (tree_wf v); tauto. Qed.
Lemma tidy_arg o : neat_arg (tidy o).
Proof. destruct o; cbn [tidy neat_arg]; try exact I; apply neat_tree. Qed.

Theorem flat_update c o c' : wf (tree c) = true -> flat_op o -> legal (plain c) o -> meaning o c = Some c' ->
  call o (flat c) = Done (flat c') /\ wf (tree c') = true.
Proof.
  intros Hw Ho L M. rewrite <- (tidy_call o _ Ho). rewrite <- tidy_meaning in M. apply tidy_legal in L. pose proof (tidy_arg o) as Na. revert L M Na. generalize (tidy o). clear o Ho.
  intros o L M Na. pose proof (plain_wf c Hw) as HW. rewrite meaning_at, <- (content_tree c) in M. change (tree c) with (d_val (plain c)) in M.
  destruct (modify_focus (plain c) _ _ _ M) as (pr & v & po & F & G). cbn [plain d_val] in F, M.
  destruct (op_writes_at o v (legal_args _ _ L) (focus_wf _ _ _ _ _ F Hw) G) as (v' & V & E & T & W).
  destruct (focus_modify _ _ _ _ _ (fun _ => Some v') v' F eq_refl) as (u1 & M1 & F1).
  assert (Hu1 : wf u1 = true) by (eapply modify_wf with (f := fun _ => Some v'); [exact (focus_lookup _ _ _ _ _ F)|reflexivity|exact Hw|exact V|exact M1]).
  assert (Nu : neat u1).
  { apply (neat_modify _ _ _ _ (neat_tree c) (T (neat_lookup _ _ _ (neat_tree c) (focus_lookup _ _ _ _ _ F)) Na) M1). }
  pose proof (modify_content_at _ _ _ _ _ _ _ (effect o) F M1 E) as C. rewrite C in M. injection M as <-. unfold flat at 2. rewrite (tree_neat u1 Nu).
  split; [|exact Hu1]. pose proof (W (place o) (plain c) pr po HW F) as R. rewrite move_here, plain_text in R. rewrite (R L). cbn [plain d_pre d_post app].
  rewrite (focus_render _ _ _ _ _ F1), app_nil_r. reflexivity.
Qed.
Lemma array_legal c o c' : array_op o -> meaning o c = Some c' -> legal (plain c) o.
Proof.
  destruct o as [p v|q x|p v|p k v|p z v|q x k|p k v]; cbn [array_op legal]; intros H M; try exact H; try exact I; try contradiction.
  destruct H as [Hv Hz]. split; [exact Hv|]. split; [exact Hz|]. cbn [meaning] in M. rewrite <- (content_tree c) in M.
  change (tree c) with (d_val (plain c)) in M. destruct (modify_focus (plain c) _ _ _ M) as (pr & u & po & F & G). apply focus_lookup in F.
  destruct u as [s|s|w els|w ms]; try (contradiction G; reflexivity). exists w, els. split; [exact F|]. right. right.
  cbn [content d_insert] in G. rewrite nth_z_map in G. destruct (nth_z els z) as [e|] eqn:E; [|contradiction G; reflexivity]. exists e. split; [reflexivity|].
  pose proof (neat_lookup _ _ _ (neat_tree c) F) as Hn. apply neat_arr in Hn. destruct Hn as [_ Hn]. rewrite Forall_forall in Hn.
  destruct (nth_z_split _ _ _ E) as (l1 & l2 & -> & _). apply (Hn e). apply in_elt.
Qed.
Theorem flat_history ops : Forall array_op ops -> Forall flat_op ops -> forall c c', wf (tree c) = true -> meanings ops c = Some c' ->
  run ops (flat c) = Some (flat c') /\ wf (tree c') = true.
Proof.
  induction ops as [|o ops IH]; intros Ha Hf c c' Hw M; cbn [meanings run] in *; [injection M as <-; auto|]. inversion Ha; subst. inversion Hf; subst.
  destruct (meaning o c) as [c1|] eqn:E; [|discriminate]. destruct (flat_update c o c1 Hw) as [R W]; [assumption|eapply array_legal; eassumption|exact E|]. rewrite R. apply IH; assumption.
Qed.

(** ** Making *)
Theorem made_array_bytes cs : cs <> [] -> MakeArrayBytes (Some (map flat cs)) = flat (DArr cs).
Proof.
  intro H. unfold MakeArrayBytes, flat. rewrite <- (map_map tree render), build_arr by (destruct cs; [contradiction|discriminate]). unfold arr_of. rewrite map_map. reflexivity.
Qed.
Theorem made_array_int zs : zs <> [] -> MakeArrayInt (Some zs) = flat (DArr (map (fun z => DScalar (itoa z)) zs)).
Proof.
  intro H. rewrite <- made_array_bytes by (destruct zs; [contradiction|discriminate]). unfold MakeArrayInt, MakeArrayBytes. rewrite map_map. reflexivity.
Qed.
Theorem made_array_bool vs : vs <> [] -> MakeArrayBool (Some vs) = flat (DArr (map (fun v => DScalar (bool_text v)) vs)).
Proof.
  intro H. rewrite <- made_array_bytes by (destruct vs; [contradiction|discriminate]). unfold MakeArrayBool, MakeArrayBytes. rewrite map_map. reflexivity.
Qed.
Lemma simple_flat pf ss : Forall (fit pf) ss -> exists cs, Forall2 written ss cs /\ map (formatType pf) ss = map flat cs /\ map shown cs = ss /\ Forall (fun c => wf (tree c) = true) cs.
Proof.
  intro H. destruct (fit_simple pf ss H) as (vs & HF). exists (map content vs). destruct (simple_lists _ _ _ HF) as (E1 & E2 & E3 & E4).
  assert (N : Forall neat vs) by (clear - HF; induction HF as [|s v ss vs [[[-> | ->] _] _] _ IH]; constructor; try exact IH; exact I).
  split; [exact E4|]. rewrite !map_map. split; [|split].
  - rewrite E1. apply map_ext_in. intros v Hv. rewrite Forall_forall in N. unfold flat. rewrite (tree_neat v (N v Hv)). reflexivity.
  - rewrite <- E3. apply map_ext_in. intros v Hv. rewrite Forall_forall in N. rewrite <- bare_shown, (tree_neat v (N v Hv)). reflexivity.
  - apply Forall_map. rewrite Forall_forall in *. intros v Hv. rewrite (tree_neat v (N v Hv)). exact (E2 v Hv).
Qed.
Theorem made_array_string pf ss : ss <> [] -> Forall (fit pf) ss ->
  exists cs, Forall2 written ss cs /\ map shown cs = ss /\ MakeArrayString pf (Some ss) = flat (DArr cs) /\ wf (tree (DArr cs)) = true.
Proof.
  intros Hne H. destruct (simple_flat pf ss H) as (cs & E1 & E2 & E3 & E4). exists cs. split; [exact E1|]. split; [exact E3|].
  rewrite <- made_array_bytes by (intros ->; inversion E1; subst; contradiction). unfold MakeArrayString, MakeArrayBytes. rewrite E2. split; [reflexivity|].
  cbn [tree]. rewrite wf_arr. cbn [ws_ok forallb andb]. rewrite forallb_map, forallb_forall. rewrite Forall_forall in E4. intros c Hc. unfold elem_ok. cbn. rewrite (E4 c Hc). reflexivity.
Qed.
Theorem made_object pf ks vs : ks <> [] -> length ks = length vs -> Forall (fun k => str_ok k = true) ks -> Forall (fit pf) vs ->
  exists cs, Forall2 written vs cs /\ map shown cs = vs /\ MakeJsonString pf (Some ks) (Some vs) = Some (flat (DObj (combine ks cs))) /\ wf (tree (DObj (combine ks cs))) = true.
Proof.
  intros Hne Hlen Hk H. destruct (simple_flat pf vs H) as (cs & E1 & E2 & E3 & E4). exists cs. split; [exact E1|]. split; [exact E3|].
  assert (Lc : length ks = length cs) by (rewrite Hlen, <- (map_length shown cs), E3; reflexivity). split.
  - unfold MakeJsonString. cbn [olen olist]. rewrite Hlen, Nat.eqb_refl. cbn [negb]. f_equal. unfold flat. cbn [tree].
    replace (JObj [] _) with (obj_of (map (fun kv => (fst kv, tree (snd kv))) (combine ks cs))) by (unfold obj_of; rewrite map_map; reflexivity).
    rewrite <- build_obj by (destruct ks, cs; try contradiction; discriminate). rewrite map_map. f_equal.
    clear - E2 Hlen Lc. revert vs cs Hlen Lc E2. induction ks as [|k ks IH]; intros [|v vs] [|c cs] Hlen Lc E2; try discriminate; [reflexivity|].
    cbn [combine map fst snd pair_item] in *. injection E2 as E E2. unfold pair_item at 1. cbn [fst snd]. fold (flat c). rewrite E, (IH vs cs); [reflexivity|injection Hlen; auto|injection Lc; auto|exact E2].
  - cbn [tree]. rewrite wf_obj. cbn [ws_ok forallb andb]. rewrite forallb_map, forallb_forall. intros [k c] Hc. unfold mem_ok. cbn.
    rewrite Forall_forall in Hk, E4. rewrite (Hk k (in_combine_l _ _ _ _ Hc)), (E4 c (in_combine_r _ _ _ _ Hc)). reflexivity.
Qed.
Theorem made_map pf ps : ps <> [] -> Forall (fun kv => str_ok (fst kv) = true /\ fit pf (snd kv)) ps ->
  exists cs, Forall2 written (map snd ps) cs /\ map shown cs = map snd ps /\ MakeJsonWithMap pf (Some ps) = flat (DObj (combine (map fst ps) cs)) /\
    wf (tree (DObj (combine (map fst ps) cs))) = true.
Proof.
  intros Hne H. destruct (made_object pf (map fst ps) (map snd ps)) as (cs & E1 & E2 & E3 & E4).
  - destruct ps; [contradiction|discriminate].
  - rewrite !map_length. reflexivity.
  - apply Forall_map. eapply Forall_impl; [|exact H]. intros a Ha. apply Ha.
  - apply Forall_map. eapply Forall_impl; [|exact H]. intros a Ha. apply Ha.
  - exists cs. split; [exact E1|]. split; [exact E2|]. split; [|exact E4]. unfold MakeJsonString in E3. cbn [olen olist] in E3. rewrite !map_length, Nat.eqb_refl in E3.
    cbn [negb] in E3. injection E3 as E3. rewrite <- E3. unfold MakeJsonWithMap. do 2 f_equal.
    clear. induction ps as [|[k v] ps IH]; [reflexivity|]. cbn [map combine fst snd]. f_equal. exact IH.
Qed.
