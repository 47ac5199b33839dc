(** Walk on well-formed documents. *)
From Coq Require Import String.
From Verif Require Import GoStd Json Spec SpecProofs Parse Domains Core Skip Focus CoreProofs CoreNeg Errors Api ApiProofs Updates History Iter SpecIter SpecList
  IterProofs IterObj IterMisc SpecParser SpecWalk Walk.

Local Open Scope N_scope.

(** ** The type of what a path leads to *)
Lemma get_type_container pf d p v : wf_doc d = true -> lookup (d_val d) p = Some v -> container v = true ->
  GetType pf (text d) p = Ok (if is_arr v then TArray else TObject).
Proof. intros Hw Hl Hc. rewrite (get_type pf d p v Hw Hl) by tauto. destruct v; try discriminate; reflexivity. Qed.

Lemma get_type_leaf pf d p v : wf_doc d = true -> lookup (d_val d) p = Some v -> container v = false ->
  exists t, GetType pf (text d) p = Ok t /\ t <> TArray /\ t <> TObject.
Proof.
  intros Hw Hl Hc. destruct (type_control d p v [] false Hw Hl) as (n & c & r & E & Ha & HT).
  destruct (lookup_focus _ _ _ Hl) as (pre & post & Hf).
  assert (Hv : wf v = true) by (eapply focus_wf; [exact Hf|apply wf_doc_inv in Hw; tauto]).
  destruct (render_first v c r Hv E) as (E1 & E2 & _).
  unfold GetType. rewrite HT. cbn [bind existsb]. rewrite Ha. cbn [bind]. rewrite E1, E2.
  destruct v as [s|s|w els|w ms]; try discriminate Hc; cbn [is_arr is_obj].
  all: destruct (c =? 34); [eexists; split; [reflexivity|split; discriminate]|].
  all: assert (Hg : exists t, GetString (text d) p = Ok t) by
    (destruct p as [|x p]; [eexists; reflexivity|eexists; apply (get_present d (x :: p) _ Hw ltac:(discriminate) Hl)]);
    destruct Hg as (t & Hg); rewrite Hg; cbn [bind].
  all: destruct (bytes_eqb t (b "true") || bytes_eqb t (b "false")); [eexists; split; [reflexivity|split; discriminate]|].
  all: destruct (bytes_eqb t (b "null")); [eexists; split; [reflexivity|split; discriminate]|].
  all: destruct (parse_int 64 t); [eexists; split; [reflexivity|split; discriminate]|].
  all: destruct (pf t); eexists; (split; [reflexivity|split; discriminate]).
Qed.

(** Position 0 of an empty array: core finds the closing bracket, Get then fails. *)
Lemma start_of_empty d q w pre post : wf_doc d = true -> focus (d_val d) q pre (JArr w []) post ->
  exists n, start_of (text d) (q ++ [itoa 0]) = Ok n /\ at_ (text d) n = Ok 93.
Proof.
  intros Hw Hf. destruct (core_reach d q (itoa 0) [] pre _ post Hw Hf eq_refl) as (r & [Hj Hr] & Hcore).
  exists (length (((d_pre d ++ pre) ++ [91]) ++ w)).
  assert (Hwc : wf (JArr w []) = true) by (eapply focus_wf; [exact Hf|apply wf_doc_inv in Hw; tauto]). rewrite wf_arr in Hwc. nbool.
  assert (Hj2 : text d = ((d_pre d ++ pre) ++ [91]) ++ w ++ 93 :: post ++ d_post d).
  { rewrite Hj, render_arr. cbn [map join]. same_text. }
  split; [|apply (at_app_eq (text d) (((d_pre d ++ pre) ++ [91]) ++ w) 93 (post ++ d_post d)); [rewrite Hj2; same_text|reflexivity]].
  unfold start_of. replace (q ++ [itoa 0]) with (q ++ [itoa 0]) by reflexivity.
  assert (Hc : core (text d) true (q ++ [itoa 0]) = Ok (None, length (((d_pre d ++ pre) ++ [91]) ++ w), O) \/
               exists k, core (text d) true (q ++ [itoa 0]) = Ok (k, length (((d_pre d ++ pre) ++ [91]) ++ w), O)).
  { right. rewrite Hcore, Hr, OUT_arr by (try reflexivity; apply path_mid_len).
    unfold arr_step. cbn [cur offset brace keyst]. rewrite nth_app_at, (atoi_itoa 0 eq_refl). cbn [Z.eqb].
    assert (Hs : skipn (S (length (d_pre d ++ pre))) (text d) = w ++ 93 :: post ++ d_post d).
    { rewrite Hj2. apply skipn_app_eq. rewrite length_snoc. reflexivity. }
    rewrite Hs, arr0_ws by (try assumption; reflexivity). change (is_open 93) with false. cbv iota. rewrite app_length. cbn [length].
    replace (S (length q) =? length q + 1)%nat with true by (symmetry; apply Nat.eqb_eq; lia).
    cbn [bind]. rewrite OUT_end by (rewrite app_length; cbn [length]; lia). cbn [bind offset keyst].
    replace (S (length (d_pre d ++ pre)) =? 0)%nat with false by reflexivity.
    rewrite Hs, skip_space_ws by (try assumption; reflexivity). cbn [bind]. eexists. f_equal. f_equal. f_equal. len. }
  destruct q as [|x q]; cbn [app] in *; destruct Hc as [Hc|[k Hc]]; rewrite Hc; reflexivity.
Qed.

Lemma get_type_empty pf d q w : wf_doc d = true -> lookup (d_val d) q = Some (JArr w []) ->
  GetType pf (text d) (q ++ [itoa 0]) = Err EEmptyArray.
Proof.
  intros Hw Hl. destruct (lookup_focus _ _ _ Hl) as (pre & post & Hf). destruct (start_of_empty d q w pre post Hw Hf) as (n & Hs & Ha).
  unfold GetType, typeControlCore. destruct (text_nonnil d Hw) as (c0 & r0 & Et). rewrite Et in *. rewrite Hs. cbn [bind existsb]. rewrite Ha. cbn [bind].
  cbn [N.eqb Pos.eqb]. rewrite <- Et.
  rewrite (proj2 (get_bad_step d q (itoa 0) [] w [] Hw Hl) 0%Z (atoi_itoa 0 eq_refl) eq_refl : GetString _ _ = _). reflexivity.
Qed.

Lemma get_type_absent pf d q x : wf_doc d = true -> seen_absent d q x -> GetType pf (text d) (q ++ [x]) = Err (EKeyNotFound x).
Proof.
  intros Hw Ha. unfold GetType, typeControlCore. destruct (text_nonnil d Hw) as (c0 & r0 & Et). rewrite Et. unfold start_of.
  pose proof (core_seen_absent d q x [] true Hw Ha) as Hc. rewrite Et in Hc. destruct (q ++ [x]) as [|y r] eqn:E; [destruct q; discriminate|].
  rewrite Hc. reflexivity.
Qed.

(** ** An object without members: one call, with an empty key *)
Lemma iterate_kv_empty {St} (cb : St -> bytes -> bytes -> St * (bool * option err)) d p w s :
  wf_doc d = true -> lookup (d_val d) p = Some (JObj w []) -> text d <> b "{}" ->
  exists x, IterateKeyValue (text d) cb p s = IDone (fst (cb s [] x)) None.
Proof.
  intros Hw Hl Hne. destruct (lookup_focus _ _ _ Hl) as (pre & post & Hf). pose proof (text_focus _ _ _ _ _ Hf) as Ht.
  assert (Hwa : wf (JObj w []) = true) by (eapply focus_wf; [exact Hf|apply wf_doc_inv in Hw; tauto]).
  rewrite (iterate_kv_enter cb d p pre w [] post s Hw Hf Hne). rewrite wf_obj in Hwa. nbool. cbn [map join app].
  set (n := length (d_pre d ++ pre)). rewrite render_obj in Ht. cbn [map join app] in Ht.
  assert (Hskip : forall k u, ws_ok u = true -> iter_kv (text d) cb (u ++ 125 :: post ++ d_post d) k n 0 1 0 0 false [] s =
     iter_kv (text d) cb (125 :: post ++ d_post d) (k + length u) n 0 1 0 0 false [] s).
  { generalize (125 :: post ++ d_post d). intros tl k u. revert k.
    induction u as [|c u IH]; intros k Hu; [rewrite Nat.add_0_r; reflexivity|]. apply ws_ok_Forall in Hu. inversion Hu as [|? ? Hc1 Hu1]; subst.
    cbn [app]. cbn [iter_kv]. pose proof (ws_plain _ Hc1) as [Hp Hp92]. pose proof (plain_neq _ Hp) as H'.
    rewrite (plain_not_open _ Hp), (plain_not_close _ Hp), !eqb_false by tauto. cbn [andb]. rewrite ?andb_false_r, IH by (apply ws_ok_Forall; assumption).
    f_equal. cbn [length]. lia. }
  rewrite Hskip by assumption. cbn [iter_kv]. change (125 =? 34) with false. change (is_open 125) with false. change (is_close 125) with true.
  cbn [N.eqb Pos.eqb Nat.eqb andb].
  assert (Hn : nth n (text d) 0 = 123).
  { unfold n. rewrite Ht, app_assoc. cbn [app]. rewrite app_nth2 by lia. rewrite Nat.sub_diag. reflexivity. }
  assert (Hlen : (n + 1 + length w < length (text d))%nat).
  { unfold n. rewrite Ht. len. }
  assert (Hfw : fwd_trim (text d) n (S n + length w) = n).
  { unfold fwd_trim. replace (S n + length w - n)%nat with (S (length w)) by lia. cbn [seq find]. rewrite Hn. reflexivity. }
  rewrite Hfw.
  assert (Hb : exists j, back_trim (text d) n (S n + length w) 0 = j /\ (n <= j <= n + length w)%nat).
  { unfold back_trim. replace (S n + length w - n)%nat with (S (length w)) by lia.
    destruct (find _ (rev (seq n (S (length w))))) as [j|] eqn:E.
    - exists j. split; [reflexivity|]. apply find_some in E. destruct E as [E _]. apply in_rev, in_seq in E. lia.
    - exfalso. assert (Hin : In n (rev (seq n (S (length w))))) by (apply in_rev; rewrite rev_involutive; apply in_seq; lia).
      apply (find_none _ _ E) in Hin. rewrite Hn in Hin. discriminate. }
  destruct Hb as (j & -> & Hj). unfold kv_value, at_. rewrite nth_error_nth' with (d := 0) by lia. rewrite Hn. cbn [bind N.eqb Pos.eqb].
  unfold slice. replace (n <=? S j)%nat with true by (symmetry; apply Nat.leb_le; lia). replace (S j <=? length (text d))%nat with true by (symmetry; apply Nat.leb_le; lia).
  cbn [andb ibind]. eexists. reflexivity.
Qed.

(** ** Walking *)
Lemma jpre_len l : (length l <= length (jpre l))%nat.
Proof. induction l as [|x l IH]; [cbn; lia|]. rewrite jpre_cons. cbn [length]. len. Qed.

Lemma objects_elem f p w l1 e l2 x : In x (objects f (p ++ [f (length l1)]) (e_val e)) -> In x (objects f p (JArr w (l1 ++ e :: l2))).
Proof.
  intro H. cbn [objects]. assert (G : forall n, In x (objects f (p ++ [f (n + length l1)%nat]) (e_val e)) ->
    In x ((fix go (i : nat) (els : list (elem jv)) : list (list bytes * list (mem jv)) :=
       match els with [] => [] | Elem _ u _ :: r => objects f (p ++ [f i]) u ++ go (S i) r end) n (l1 ++ e :: l2))); [|apply (G 0%nat); exact H].
  clear H. induction l1 as [|[a u c] l1 IH]; intros n H; cbn [app length] in *.
  - rewrite Nat.add_0_r in H. destruct e as [a u c]. apply in_or_app. left. exact H.
  - apply in_or_app. right. apply IH. rewrite Nat.add_succ_comm. exact H.
Qed.
Lemma objects_mem f p w l1 m l2 x : In x (objects f (p ++ [m_key m]) (m_val m)) -> In x (objects f p (JObj w (l1 ++ m :: l2))).
Proof.
  intro H. cbn [objects]. right. induction l1 as [|[a k c c' u e] l1 IH]; cbn [app].
  - destruct m. apply in_or_app. left. exact H.
  - apply in_or_app. right. exact IH.
Qed.
Lemma objects_here f p w ms : In (p, ms) (objects f p (JObj w ms)).
Proof. left. reflexivity. Qed.

(** ** Members with the same key *)
Definition found_elem (e : elem jv) : elem jv := Elem (e_pre e) (as_found (e_val e)) (e_post e).
Definition found_val (ms : list (mem jv)) (m : mem jv) : jv := match find_mem (m_key m) ms with Some m0 => as_found (m_val m0) | None => as_found (m_val m) end.
Lemma find_mem_map (f : mem jv -> mem jv) k ms : (forall m, m_key (f m) = m_key m) -> find_mem k (map f ms) = option_map f (find_mem k ms).
Proof.
  intro Hf. unfold find_mem. induction ms as [|m ms IH]; [reflexivity|]. cbn [map find]. rewrite Hf. destruct (bytes_eqb _ _); [reflexivity|exact IH].
Qed.
Definition found_mem (ms : list (mem jv)) (m : mem jv) : mem jv :=
  match m with Mem a k c c' u e => Mem a k c c' (found_val ms m) e end.
Lemma as_found_arr w els : as_found (JArr w els) = JArr w (map found_elem els).
Proof. cbn [as_found]. f_equal. apply map_ext. intros [a u c]. reflexivity. Qed.
Lemma as_found_obj w ms : as_found (JObj w ms) = JObj w (map (found_mem ms) ms).
Proof.
  cbn [as_found]. f_equal. rewrite map_map. apply map_ext. intros [a k c c' u e]. unfold found_mem, found_val. cbn [m_key m_val]. f_equal.
  rewrite (find_mem_map (fun m => match m with Mem a k c c' u e => Mem a k c c' (as_found u) e end)) by (intros []; reflexivity).
  destruct (find_mem k ms) as [[]|]; reflexivity.
Qed.
Lemma found_mem_key ms m : m_key (found_mem ms m) = m_key m. Proof. destruct m; reflexivity. Qed.
Lemma found_mem_val ms m : m_val (found_mem ms m) = found_val ms m. Proof. destruct m; reflexivity. Qed.
Lemma find_mem_in k (ms : list (mem jv)) : In k (map m_key ms) -> exists m, find_mem k ms = Some m /\ In m ms /\ m_key m = k.
Proof.
  intro H. destruct (find_mem k ms) as [m|] eqn:E.
  - exists m. split; [reflexivity|]. apply find_mem_split in E. destruct E as (Hk & l1 & l2 & -> & _). split; [apply in_elt|exact Hk].
  - apply find_mem_none in E. apply in_map_iff in H. destruct H as (m & <- & Hin). unfold nokey in E. rewrite Forall_forall in E.
    destruct (E m Hin eq_refl).
Qed.

Section Walk.
  Context {St : Type}.
  Variables (pf : bytes -> bool) (d : doc).
  Variable cb : St -> bytes -> bytes -> list bytes -> St * (bool * option err).
  Hypothesis Hw : wf_doc d = true.
  Hypothesis Hfit : fits (text d).
  Hypothesis Hempty : forall p, In (p, []) (objects dec [] (as_found (d_val d))) -> seen_absent d p [].
  Hypothesis Hroot : text d <> b "{}" /\ text d <> b "[]".

  Local Notation shown_leaf := (SpecWalk.shown_leaf d).
  Definition wdone (r : St * option err) : wres St := WDone (fst r) (snd r).
  Local Notation wk := (walked dec shown_leaf EEmptyArray cb).

  (** The two loops of [walked] *)
  Fixpoint walked_els (p : list bytes) (i : nat) (els : list (elem jv)) (s : St) : St * option err :=
    match els with
    | [] => (s, None)
    | e :: r => match wk (p ++ [dec i]) (e_val e) s with (s', None) => walked_els p (S i) r s' | x => x end
    end.
  Fixpoint walked_ms (p : list bytes) (ms : list (mem jv)) (s : St) : St * option err :=
    match ms with
    | [] => (s, None)
    | m :: r => match wk (p ++ [m_key m]) (m_val m) s with
                | (s', None) => walked_ms p r s'
                | (s', Some e) => (s', match r with [] => None | _ => Some e end)
                end
    end.
  Lemma walked_arr p w e els s : wk p (JArr w (e :: els)) s = walked_els p 0 (e :: els) s.
  Proof.
    destruct e as [a0 u0 c0]. cbn [walked walked_els e_val]. destruct (wk (p ++ [dec 0]) u0 s) as [s0 [x|]]; [reflexivity|].
    generalize 1%nat. revert s0. induction els as [|[a u c] l IH]; intros s' i; [reflexivity|].
    cbn [walked_els e_val]. destruct (wk (p ++ [dec i]) u s') as [s2 [x|]]; [reflexivity|apply IH].
  Qed.
  Lemma walked_obj p w ms s : wk p (JObj w ms) s = walked_ms p ms s.
  Proof.
    cbn [walked]. revert s. induction ms as [|[a k c c' u e] l IH]; intro s; [reflexivity|]. cbn [walked_ms m_val m_key].
    destruct (wk (p ++ [k]) u s) as [s' [x|]]; [reflexivity|apply IH].
  Qed.

  Definition Walks (v : jv) : Prop := forall p s fuel, lookup (d_val d) p = Some v -> incl (objects dec p (as_found v)) (objects dec [] (as_found (d_val d))) -> (length (render v) < fuel)%nat ->
    walk pf fuel (text d) p cb s = wdone (wk p (as_found v) s).

  Lemma lookup_text p v : lookup (d_val d) p = Some v -> (length (render v) <= length (text d))%nat.
  Proof. intro Hl. destruct (lookup_focus _ _ _ Hl) as (pre & post & Hf). rewrite (text_focus _ _ _ _ _ Hf). len. Qed.
  Lemma lookup_snoc p v x : lookup (d_val d) p = Some v -> lookup (d_val d) (p ++ [x]) = child v x.
  Proof.
    generalize (d_val d). induction p as [|y p IH]; intros u Hl; cbn [app lookup] in *.
    - injection Hl as ->. destruct (child v x); reflexivity.
    - destruct (child u y); [auto|discriminate].
  Qed.

  Lemma els_step p w els fuel : lookup (d_val d) p = Some (JArr w els) -> incl (objects dec p (JArr w (map found_elem els))) (objects dec [] (as_found (d_val d))) -> Forall (fun e => Walks (e_val e)) els ->
    (length (render (JArr w els)) <= fuel)%nat ->
    forall l1 l2 s, els = l1 ++ l2 ->
    after (idone (visit (fun ws _ => below ws (fun s i => walk pf fuel (text d) (p ++ [itoa (Z.of_nat i)]) cb s)) (items l2) (Live s (length l1))))
    = wdone (walked_els p (length l1) (map found_elem l2) s).
  Proof.
    intros Hl Hinc Hels Hfuel l1 l2. revert l1. induction l2 as [|e l2 IH]; intros l1 s He; [reflexivity|].
    cbn [items map visit walked_els below]. change (e_val (found_elem e)) with (as_found (e_val e)).
    assert (Hc : lookup (d_val d) (p ++ [dec (length l1)]) = Some (e_val e)).
    { rewrite (lookup_snoc _ _ _ Hl). cbn [child]. unfold dec.
      pose proof (lookup_text _ _ Hl) as Hlt. assert (Hi : (length l1 < length (render (JArr w els)))%nat).
      { rewrite He, render_arr_split. unfold arr_pre. pose proof (jpre_len (map elem_text l1)) as Hj. rewrite map_length in Hj. len. }
      rewrite atoi_itoa by (unfold in_int64, fits, int64_max, int64_min in *; apply andb_true_iff; split; apply Z.leb_le; lia).
      rewrite He, nth_z_app. reflexivity. }
    rewrite Forall_forall in Hels. specialize (Hels e ltac:(rewrite He; apply in_elt)). fold (dec (length l1)). assert (Hi1 : incl (objects dec (p ++ [dec (length l1)]) (as_found (e_val e))) (objects dec [] (as_found (d_val d))))
      by (intros x Hx; apply Hinc; rewrite He, map_app; cbn [map]; apply objects_elem; rewrite map_length; exact Hx).
    rewrite (Hels _ s fuel Hc Hi1).
    2:{ rewrite He, render_arr_split in Hfuel. unfold arr_pre in Hfuel. rewrite !app_length in Hfuel. cbn [length] in Hfuel. lia. }
    unfold wdone at 1. destruct (wk (p ++ [dec (length l1)]) (as_found (e_val e)) s) as [s' [x|]]; cbn [fst snd]; [reflexivity|].
    specialize (IH (l1 ++ [e]) s'). rewrite app_length, Nat.add_1_r in IH. apply IH. rewrite He, <- app_assoc. reflexivity.
  Qed.

  Lemma ms_step p w ms fuel : lookup (d_val d) p = Some (JObj w ms) -> incl (objects dec p (JObj w (map (found_mem ms) ms))) (objects dec [] (as_found (d_val d))) -> Forall (fun m => Walks (m_val m)) ms ->
    (length (render (JObj w ms)) <= fuel)%nat ->
    forall l1 l2 s, ms = l1 ++ l2 -> l2 <> [] ->
    after (IDone (fst (visit (uncurry2 (fun ws key _ => below ws (fun s _ => walk pf fuel (text d) (p ++ [key]) cb s))) (shown_pairs l2) (Live s (length l1))))
                 (snd (visit (uncurry2 (fun ws key _ => below ws (fun s _ => walk pf fuel (text d) (p ++ [key]) cb s))) (removelast (shown_pairs l2)) (Live s (length l1)))))
    = wdone (walked_ms p (map (found_mem ms) l2) s).
  Proof.
    intros Hl Hinc Hms Hfuel l1 l2. revert l1. induction l2 as [|m l2 IH]; intros l1 s He Hne; [contradiction|].
    destruct (find_mem_in (m_key m) ms) as (m0 & Hfind & Hin0 & Hk0); [rewrite He; apply in_map, in_elt|].
    assert (Hc : lookup (d_val d) (p ++ [m_key m]) = Some (m_val m0)).
    { rewrite (lookup_snoc _ _ _ Hl). cbn [child]. rewrite Hfind. reflexivity. }
    assert (Hv : found_val ms m = as_found (m_val m0)) by (unfold found_val; rewrite Hfind; reflexivity).
    rewrite Forall_forall in Hms. pose proof (Hms m0 Hin0) as Hm.
    assert (Hlt : (length (render (m_val m0)) < fuel)%nat).
    { apply in_split in Hin0. destruct Hin0 as (q1 & q2 & Hq). rewrite Hq, render_obj_split in Hfuel. unfold obj_pre, obj_kpre in Hfuel.
      rewrite !app_length in Hfuel. cbn [length] in Hfuel. lia. }
    assert (Hi1 : incl (objects dec (p ++ [m_key m]) (as_found (m_val m0))) (objects dec [] (as_found (d_val d)))).
    { intros x Hx. apply Hinc. rewrite He at 2. rewrite map_app. cbn [map]. apply objects_mem. rewrite found_mem_key, found_mem_val, Hv. exact Hx. }
    pose proof (fun s => Hm _ s fuel Hc Hi1 Hlt) as Hm'. clear Hm. rewrite <- Hv in Hm'.
    destruct l2 as [|m2 l2].
    - cbn [shown_pairs removelast visit map walked_ms uncurry2 fst snd below]. unfold uncurry2. cbn [fst snd below]. rewrite Hm', found_mem_key, found_mem_val. unfold wdone at 1.
      destruct (wk (p ++ [m_key m]) (found_val ms m) s) as [s' [x|]]; reflexivity.
    - change (shown_pairs (m :: m2 :: l2)) with ((m_key m, shown m) :: shown_pairs (m2 :: l2)).
      assert (Hn2 : shown_pairs (m2 :: l2) <> []) by (destruct l2; discriminate).
      replace (removelast ((m_key m, shown m) :: shown_pairs (m2 :: l2))) with ((m_key m, shown m) :: removelast (shown_pairs (m2 :: l2)))
        by (destruct (shown_pairs (m2 :: l2)); [contradiction|reflexivity]).
      cbn [visit]. unfold uncurry2 at 1 3. cbn [fst snd below]. rewrite Hm'. unfold wdone at 1 2.
      change (walked_ms p (map (found_mem ms) (m :: m2 :: l2)) s) with
        (match wk (p ++ [m_key (found_mem ms m)]) (m_val (found_mem ms m)) s with (s', None) => walked_ms p (map (found_mem ms) (m2 :: l2)) s' | (s', Some e) => (s', Some e) end).
      rewrite found_mem_key, found_mem_val. destruct (wk (p ++ [m_key m]) (found_val ms m) s) as [s' [x|]]; cbn [fst snd]; [reflexivity|].
      specialize (IH (l1 ++ [m]) s'). rewrite app_length, Nat.add_1_r in IH. apply IH; [rewrite He, <- app_assoc; reflexivity|discriminate].
  Qed.

  Lemma walk_all v : Walks v.
  Proof.
    induction v as [t|t|w els IH|w ms IH] using jv_ind'; intros p s fuel Hl Hinc Hfuel; (destruct fuel as [|fuel]; [lia|]); cbn [walk].
    1,2: match type of Hl with _ = Some ?u => destruct (get_type_leaf pf d p u Hw Hl eq_refl) as (ty & Hty & H1 & H2); rewrite Hty;
      assert (Hg : Get (text d) p = Ok (shown_leaf p u)) by
        (destruct p as [|x p]; [reflexivity|apply (get_present d (x :: p) u Hw ltac:(discriminate) Hl)]) end;
      rewrite Hg; cbn [walked as_found]; unfold leaf_key;
      destruct (cb s (last p []) _ p) as [s' [go e]]; destruct ty; try contradiction; reflexivity.
    - rewrite (get_type_container pf d p _ Hw Hl eq_refl). cbn [is_arr]. rewrite as_found_arr in Hinc |- *.
      destruct els as [|e els].
      + rewrite (iterate_array_empty' _ d p w _ Hw Hl). destruct (bytes_eqb_spec (text d) (b "[]")) as [E|_]; [tauto|].
        destruct fuel as [|fuel]; [rewrite render_arr in Hfuel; cbn [length] in Hfuel; lia|].
        cbn [below walk]. change (Z.of_nat 0) with 0%Z. rewrite (get_type_empty pf d p w Hw Hl). reflexivity.
      + rewrite (iterate_array _ d p w _ _ Hw Hl) by discriminate. cbn [map] in *. rewrite walked_arr. fold (map found_elem (e :: els)).
        change (found_elem e :: map found_elem els) with (map found_elem (e :: els)) in *.
        apply (els_step p w (e :: els) fuel Hl Hinc IH ltac:(lia) [] (e :: els) s eq_refl).
    - rewrite (get_type_container pf d p _ Hw Hl eq_refl). cbn [is_arr]. rewrite as_found_obj in Hinc |- *. rewrite walked_obj.
      destruct ms as [|m ms].
      + destruct (iterate_kv_empty (fun w key _ => below w (fun s _ => walk pf fuel (text d) (p ++ [key]) cb s)) d p w (Live s 0) Hw Hl ltac:(tauto))
          as (x & Hx). rewrite Hx.
        destruct fuel as [|fuel]; [rewrite render_obj in Hfuel; cbn [length] in Hfuel; lia|].
        cbn [below walk]. rewrite (get_type_absent pf d p [] Hw (Hempty _ (Hinc _ (objects_here dec p w [])))). reflexivity.
      + rewrite (iterate_kv _ d p w _ _ Hw Hl) by discriminate.
        apply (ms_step p w (m :: ms) fuel Hl Hinc IH ltac:(lia) [] (m :: ms) s eq_refl). discriminate.
  Qed.

  Theorem Walk_found s : Walk pf (text d) cb s = wdone (wk [] (as_found (d_val d)) s).
  Proof. apply walk_all; [reflexivity|apply incl_refl|]. pose proof (lookup_text [] _ eq_refl). lia. Qed.
End Walk.

(** Unique keys: the document is as one finds it. *)
Lemma objects_found v : forall p, (forall q ms, In (q, ms) (objects dec p v) -> NoDup (map m_key ms)) -> as_found v = v.
Proof.
  induction v as [t|t|w els IH|w ms IH] using jv_ind'; intros p Hu; try reflexivity.
  - rewrite as_found_arr. f_equal. rewrite <- (map_id els) at 2. apply map_ext_in. intros e He. apply in_split in He. destruct He as (l1 & l2 & ->).
    rewrite Forall_forall in IH. unfold found_elem. rewrite (IH e (in_elt _ _ _) (p ++ [dec (length l1)])); [destruct e; reflexivity|].
    intros q ms H. apply (Hu q). apply objects_elem. exact H.
  - rewrite as_found_obj. f_equal. rewrite <- (map_id ms) at 3. apply map_ext_in. intros m Hm.
    pose proof (Hu p ms (objects_here _ _ _ _)) as Hn. rewrite Forall_forall in IH. pose proof (IH m Hm (p ++ [m_key m])) as Hi.
    assert (Hf : find_mem (m_key m) ms = Some m).
    { destruct (in_split _ _ Hm) as (l1 & l2 & E). rewrite E, map_app in Hn. cbn [map] in Hn. apply NoDup_remove_2 in Hn. rewrite E.
      apply find_mem_app; [|reflexivity]. apply Forall_forall. intros m' Hin Hk. apply Hn, in_or_app. left. rewrite <- Hk. apply in_map. exact Hin. }
    unfold found_mem, found_val. rewrite Hf, Hi; [destruct m; reflexivity|].
    intros q ms' H. apply (Hu q). destruct (in_split _ _ Hm) as (l1 & l2 & ->). apply objects_mem. exact H.
Qed.
Theorem Walk_exact {St} pf d (cb : St -> bytes -> bytes -> list bytes -> St * (bool * option err)) :
  wf_doc d = true -> fits (text d) -> unique_keys dec (d_val d) ->
  (forall p, In (p, []) (objects dec [] (d_val d)) -> seen_absent d p []) ->
  text d <> b "{}" /\ text d <> b "[]" ->
  forall s, Walk pf (text d) cb s = wdone (walked dec (shown_leaf d) EEmptyArray cb [] (d_val d) s).
Proof.
  intros Hw Hf Hu He Hr s. pose proof (objects_found (d_val d) [] Hu) as E. rewrite <- E. apply Walk_found; try assumption. rewrite E. exact He.
Qed.

(** ** When the walk is the expected one *)
Lemma filled_arr w els : filled (JArr w els) = negb (match els with [] => true | _ => false end) && forallb (fun e => filled (e_val e)) els.
Proof. destruct els as [|e els]; [reflexivity|]. cbn [filled negb andb]. induction (e :: els) as [|[a u c] l IH]; [reflexivity|]. cbn [forallb e_val]. rewrite IH. reflexivity. Qed.
Lemma filled_obj w ms : filled (JObj w ms) = forallb (fun m => filled (m_val m)) ms.
Proof. cbn [filled]. induction ms as [|[a k c c' u e] l IH]; [reflexivity|]. cbn [forallb m_val]. rewrite IH. reflexivity. Qed.
Lemma no_obj_arr w els : no_obj (JArr w els) = forallb (fun e => no_obj (e_val e)) els.
Proof. cbn [no_obj]. induction els as [|[a u c] l IH]; [reflexivity|]. cbn [forallb e_val]. rewrite IH. reflexivity. Qed.

Lemma visit_app {A St Er} (cb : St -> A -> St * (bool * option Er)) l1 l2 s : (forall s x, fst (snd (cb s x)) = true) ->
  visit cb (l1 ++ l2) s = match visit cb l1 s with (s', None) => visit cb l2 s' | r => r end.
Proof.
  intro Hgo. revert s. induction l1 as [|x l1 IH]; intro s; [reflexivity|]. cbn [app visit]. specialize (Hgo s x).
  destruct (cb s x) as [s' [go [e|]]]; [reflexivity|]. cbn in Hgo. rewrite Hgo. apply IH.
Qed.

Section Expected.
  Context {St Er : Type}.
  Variables (dec : nat -> bytes) (shown : list bytes -> jv -> bytes) (ea : Er).
  Variable cb : St -> bytes -> bytes -> list bytes -> St * (bool * option Er).
  Local Notation wk := (walked dec shown ea cb).
  Local Notation vis := (visit (fun s (l : list bytes * jv) => keep_going cb s (leaf_key (fst l)) (shown (fst l) (snd l)) (fst l))).

  Lemma vis_go s (l : list bytes * jv) : fst (snd (keep_going cb s (leaf_key (fst l)) (shown (fst l) (snd l)) (fst l))) = true.
  Proof. unfold keep_going. destruct (cb _ _ _ _) as [? [? ?]]. reflexivity. Qed.

  (** Objects swallow errors: without objects, or without errors, the walk is the expected one. *)
  Lemma walked_expected v : filled v = true -> no_obj v = true \/ (forall s k t p, snd (snd (cb s k t p)) = None) ->
    forall p s, wk p v s = vis (leaves dec p v) s.
  Proof.
    induction v as [t|t|w els IH|w ms IH] using jv_ind'; intros Hfill Hh p s.
    1,2: cbn [walked leaves visit fst snd]; unfold keep_going; destruct (cb _ _ _ _) as [s' [go [e|]]]; reflexivity.
    - rewrite filled_arr in Hfill. apply andb_true_iff in Hfill. destruct Hfill as [Hne Hfill].
      assert (Hh' : Forall (fun e => no_obj (e_val e) = true \/ (forall s k t p, snd (snd (cb s k t p)) = None)) els).
      { destruct Hh as [Hh|Hh]; [|apply Forall_forall; auto]. rewrite no_obj_arr in Hh. apply Forall_forall. intros e Hin. left.
        rewrite forallb_forall in Hh. auto. }
      clear Hh. destruct els as [|e0 els0]; [discriminate|]. clear Hne. cbn [walked leaves]. generalize 0%nat. 
      assert (G : forall l, Forall (fun e => filled (e_val e) = true -> no_obj (e_val e) = true \/ (forall s k t p, snd (snd (cb s k t p)) = None) ->
                forall p s, wk p (e_val e) s = vis (leaves dec p (e_val e)) s) l -> forallb (fun e => filled (e_val e)) l = true ->
              Forall (fun e => no_obj (e_val e) = true \/ (forall s k t p, snd (snd (cb s k t p)) = None)) l -> forall i s,
        (fix go (i : nat) (els : list (elem jv)) (s : St) : St * option Er :=
           match els with
           | [] => (s, None)
           | Elem _ u _ :: r => match wk (p ++ [dec i]) u s with (s', None) => go (S i) r s' | x => x end
           end) i l s =
        vis ((fix go (i : nat) (els : list (elem jv)) : list (list bytes * jv) :=
           match els with [] => [] | Elem _ u _ :: r => leaves dec (p ++ [dec i]) u ++ go (S i) r end) i l) s).
      { induction l as [|[a u c] l IHl]; intros HI Hf Hn i s0; [reflexivity|]. inversion HI as [|? ? H1 H2]; subst. inversion Hn as [|? ? H3 H4]; subst.
        cbn [forallb e_val] in *. apply andb_true_iff in Hf. destruct Hf as [Hf1 Hf2].
        rewrite visit_app by apply vis_go. rewrite H1 by assumption. destruct (vis (leaves dec (p ++ [dec i]) u) s0) as [s' [x|]]; [reflexivity|]. apply IHl; assumption. }
      intro i. apply (G (e0 :: els0)); assumption.
    - destruct Hh as [Hh|Hh]; [discriminate|]. rewrite filled_obj in Hfill. cbn [walked leaves]. revert s.
      induction ms as [|[a k c c' u e] ms IHm]; intro s; [reflexivity|]. inversion IH as [|? ? H1 H2]; subst. cbn [forallb m_val] in *.
      apply andb_true_iff in Hfill. destruct Hfill as [Hf1 Hf2]. rewrite visit_app by apply vis_go. rewrite H1 by (try assumption; right; exact Hh).
      assert (Hnone : forall l s, snd (vis l s) = None).
      { intro l. induction l as [|x l IHx]; intro s0; [reflexivity|]. cbn [visit]. unfold keep_going at 1.
        pose proof (Hh s0 (leaf_key (fst x)) (shown (fst x) (snd x)) (fst x)) as Hx. destruct (cb _ _ _ _) as [s1 [g [er|]]]; [discriminate|]. apply IHx. }
      pose proof (Hnone (leaves dec (p ++ [k]) u) s) as Hx. destruct (vis (leaves dec (p ++ [k]) u) s) as [s' [x|]]; [discriminate|]. apply IHm; assumption.
  Qed.
End Expected.

Theorem Walk_expected {St} pf d (cb : St -> bytes -> bytes -> list bytes -> St * (bool * option err)) s :
  wf_doc d = true -> fits (text d) -> unique_keys dec (d_val d) ->
  (forall p, In (p, []) (objects dec [] (d_val d)) -> seen_absent d p []) -> text d <> b "{}" ->
  filled (d_val d) = true -> no_obj (d_val d) = true \/ (forall s k t p, snd (snd (cb s k t p)) = None) ->
  Walk pf (text d) cb s = wdone (expected dec (shown_leaf d) (keep_going cb) (d_val d) s).
Proof.
  intros Hw Hf Hu He Hr Hfill Hh. rewrite (Walk_exact pf d cb Hw Hf Hu He).
  - unfold expected. rewrite <- (walked_expected dec (shown_leaf d) EEmptyArray cb (d_val d) Hfill Hh [] s). reflexivity.
  - split; [exact Hr|]. intro E. pose proof (content_unique d (Doc [] (JArr [] []) []) Hw eq_refl E) as Hc. cbn [d_val content map] in Hc.
    destruct (d_val d) as [x|x|w [|e els]|w ms]; discriminate.
Qed.
