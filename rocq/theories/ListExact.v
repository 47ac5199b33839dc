(** The exact results of the listing functions, the array functions and the maps on every document, including
    the ones whose values they do not trim properly and containers of whitespace only. *)
From Coq Require Import String.
From Verif Require Import GoStd Json SpecIter SpecList Core Skip Focus CoreProofs Errors Api ApiProofs Iter IterProofs IterObj IterMisc Split.

Local Open Scope N_scope.

(** ** cleanValueString on any text *)
Lemma drop_ws_app u t : ws_ok u = true -> drop_ws (u ++ t) = drop_ws t.
Proof.
  intro H. apply ws_ok_Forall in H. induction H as [|c u Hc _ IH]; [reflexivity|]. cbn [app drop_ws]. rewrite Hc. exact IH.
Qed.

Lemma ws_front s : exists u t, s = u ++ t /\ ws_ok u = true /\ drop_ws s = t /\ (t = [] \/ exists c r, t = c :: r /\ is_ws c = false).
Proof.
  induction s as [|c s (u & t & E & Hu & Hd & Ht)].
  - exists [], []. repeat split; auto.
  - destruct (is_ws c) eqn:Hc.
    + exists (c :: u), t. cbn [app drop_ws ws_ok forallb]. rewrite Hc, E. split; [reflexivity|]. split; [exact Hu|].
      split; [rewrite <- E; exact Hd|exact Ht].
    + exists [], (c :: s). cbn [app drop_ws]. rewrite Hc. split; [reflexivity|]. split; [reflexivity|]. split; [reflexivity|].
      right. eauto.
Qed.

Lemma strip_spec s : (ws_ok s = true /\ strip s = []) \/
  exists u m w, s = u ++ m ++ w /\ ws_ok u = true /\ ws_ok w = true /\ strip s = m /\
    (exists c r, m = c :: r /\ is_ws c = false) /\ (exists r c, m = r ++ [c] /\ is_ws c = false).
Proof.
  unfold strip. destruct (ws_front s) as (u & t & E & Hu & -> & Ht).
  destruct Ht as [->|(c & r & Et & Hc)].
  - left. rewrite app_nil_r in E. subst s. split; [exact Hu|reflexivity].
  - right. destruct (ws_front (rev t)) as (w & m & Em & Hw & -> & Hm).
    assert (Ert : t = rev m ++ rev w) by (rewrite <- (rev_involutive t), Em, rev_app_distr; reflexivity).
    destruct Hm as [->|(c2 & r2 & Em2 & Hc2)].
    { exfalso. rewrite app_nil_r in Em. subst t. apply (f_equal (@length N)) in Em.
      assert (In c w).
      { assert (Hin : In c (rev (c :: r))) by (apply -> in_rev; left; reflexivity).
        cbn [rev app] in Ert. rewrite <- in_rev in Hin. rewrite Ert in Hin. apply in_rev. exact Hin. }
      unfold ws_ok in Hw. rewrite forallb_forall in Hw. rewrite (Hw c) in Hc by assumption. discriminate. }
    exists u, (rev m), (rev w). split; [rewrite E, Ert; reflexivity|]. split; [exact Hu|]. split; [apply ws_rev; exact Hw|].
    split; [reflexivity|]. split.
    + rewrite Em2 in *. cbn [rev] in *. destruct (rev r2) as [|y l] eqn:Er.
      * cbn [app] in Ert. rewrite Ert in Et. injection Et as -> _. exists c, []. auto.
      * cbn [app] in Ert. rewrite Ert in Et. injection Et as -> _. exists c, (l ++ [c2]). auto.
    + rewrite Em2. cbn [rev]. eauto.
Qed.

Lemma trim1_blank w c : ws_ok (w ++ [c]) = true -> trim1 (w ++ [c]) = [c].
Proof.
  induction w as [|x w IH]; intro H; [reflexivity|]. cbn [app ws_ok forallb] in H. apply andb_true_iff in H. destruct H as [Hx H].
  cbn [app]. destruct (w ++ [c]) as [|y l] eqn:E; [destruct w; discriminate|].
  change (trim1 (x :: y :: l)) with (if space x then trim1 (y :: l) else x :: y :: l). rewrite <- is_ws_space, Hx. apply IH. exact H.
Qed.

Lemma clean_blanks w : ws_ok w = true -> cleanValueString w = match blanks w with Some t => Ok t | None => Panic end.
Proof.
  intro Hw. destruct w as [|c0 w0]; [reflexivity|]. set (w := c0 :: w0) in *.
  destruct (exists_last (l := w) ltac:(discriminate)) as (q & c & E).
  assert (Hc : (c =? 34) = false).
  { apply N.eqb_neq. intros ->. unfold ws_ok in Hw. rewrite forallb_forall in Hw.
    specialize (Hw 34 ltac:(rewrite E; apply in_or_app; right; left; reflexivity)). discriminate. }
  assert (Hcl : cleanValueString w = slice w (length q) (S (match length q with O => O | _ => 1 end))%nat).
  { assert (Hst : (length w - length (trim1 w))%nat = length q).
    { rewrite E, trim1_blank by (rewrite <- E; exact Hw). len. }
    unfold cleanValueString. rewrite Hst.
    replace (nth (length q) w 0) with c by (rewrite E; symmetry; apply (nth_at q c [])).
    replace (pred (length w)) with (length q) by (rewrite E; len).
    rewrite Hc. cbn [andb].
    replace (cvs_end w (length q)) with (match length q with O => O | _ => 1 end)%nat; [subst w; destruct q; reflexivity|].
    destruct (length q) as [|n] eqn:En; [reflexivity|]. symmetry. apply cvs_end_one; [|lia].
    intros k Hk. apply nth_is_ws; [exact Hw|]. rewrite E. len. }
  rewrite Hcl, E. clear Hcl. clearbody w. subst w. destruct q as [|q0 [|q1 [|q2 q]]]; try reflexivity.
  replace (blanks ((q0 :: q1 :: q2 :: q) ++ [c])) with (@None bytes) by (cbn; destruct (q ++ [c]) eqn:E; [destruct q; discriminate|reflexivity]).
  reflexivity.
Qed.

Lemma clean_exact s : cleanValueString s = match cleaned s with Some t => Ok t | None => Panic end.
Proof.
  destruct (strip_spec s) as [[Hs E]|(u & m & w & Es & Hu & Hw & Em & (c & r & Ec & Hc) & (r2 & c2 & Ec2 & Hc2))].
  { unfold cleaned. rewrite E. apply clean_blanks. exact Hs. }
  unfold cleaned. rewrite Em.
  assert (T1 : trim1 s = m ++ w) by (rewrite Es, Ec; apply trim1_ws; assumption).
  assert (Hne : s <> []) by (rewrite Es, Ec; destruct u; discriminate).
  assert (N1 : nth (length u) s 0 = c) by (rewrite Es, Ec; apply nth_at).
  assert (Hst : (length s - length (trim1 s))%nat = length u) by (rewrite T1, Es; len).
  assert (Hcl : cleanValueString s =
    (let e := cvs_end s (pred (length s)) in if (c =? 34) && (nth e s 0 =? 34) then slice s (S (length u)) e else slice s (length u) (S e))).
  { unfold cleanValueString. rewrite Hst, N1. destruct s; [contradiction|reflexivity]. }
  rewrite Hcl. clear Hcl.
  assert (Hor : ((1 <= length (u ++ r2))%nat \/ w = []) \/ (u = [] /\ r2 = [] /\ exists x w', w = x :: w')).
  { destruct w as [|x w']; [left; right; reflexivity|]. destruct u as [|a u]; [|left; left; cbn; lia].
    destruct r2; [right; eauto|left; left; cbn; lia]. }
  destruct Hor as [Hor|(-> & -> & x & w' & ->)].
  - assert (He : cvs_end s (pred (length s)) = length (u ++ r2)).
    { apply (cvs_end_spec _ (u ++ r2) c2 w); [rewrite Es, Ec2; same_text|assumption|assumption|exact Hor]. }
    rewrite He. cbv zeta.
    assert (N2 : nth (length (u ++ r2)) s 0 = c2).
    { rewrite Es, Ec2. replace (u ++ (r2 ++ [c2]) ++ w) with ((u ++ r2) ++ c2 :: w) by same_text. apply nth_at. }
    rewrite N2.
    assert (Hun : (if (c =? 34) && (c2 =? 34) then slice s (S (length u)) (length (u ++ r2)) else slice s (length u) (S (length (u ++ r2)))) =
                  match unquoted m with Some t => Ok t | None => Panic end).
    { unfold unquoted. replace (hd 0 m) with c by (rewrite Ec; reflexivity).
      replace (last m 0) with c2 by (rewrite Ec2, last_last; reflexivity).
      destruct ((c =? 34) && (c2 =? 34)).
      - destruct r2 as [|y r2].
        + rewrite Ec2. cbn [app]. rewrite app_nil_r. unfold slice.
          destruct (S (length u) <=? length u)%nat eqn:El; [apply Nat.leb_le in El; lia|]. reflexivity.
        + rewrite Ec2. cbn [app]. destruct (r2 ++ [c2]) as [|z l] eqn:Ez; [destruct r2; discriminate|].
          cbn [tl]. rewrite <- Ez, removelast_last.
          apply (slice_app_eq _ (u ++ [y]) r2 (c2 :: w)); [rewrite Es, Ec2; same_text|len|len].
      - apply (slice_app_eq _ u m w); [rewrite Es; reflexivity|reflexivity|rewrite Ec2; len]. }
    rewrite Hun. rewrite Ec. destruct r as [|y r]; [|reflexivity].
    destruct u as [|a u].
    + destruct Hor as [Hor|Hor].
      * exfalso. rewrite Ec2 in Ec. destruct r2 as [|? [|]]; try discriminate. cbn in Hor. lia.
      * rewrite Es, Ec, Hor. cbn [app hd]. rewrite Hc. reflexivity.
    + rewrite Es. cbn [app hd]. cbn [ws_ok forallb] in Hu. nbool. match goal with H : is_ws a = true |- _ => rewrite H end. reflexivity.
  - cbn [app] in *. clear Em T1 N1 Hst. rewrite Ec2 in Ec, Es |- *. injection Ec as <- <-. rewrite Es. clear Es Hne. cbn [app hd]. rewrite Hc.
    cbn [firstn length pred]. rewrite cvs_end_one; [|intros k Hk|lia].
    + cbv zeta. cbn [nth]. unfold unquoted. cbn [hd last].
      assert (Hx : (x =? 34) = false).
      { cbn [ws_ok forallb] in Hw. nbool. apply N.eqb_neq. intros ->. discriminate. }
      rewrite Hx, andb_false_r. reflexivity.
    + destruct k as [|[|k]]; try lia. cbn [nth]. cbn [ws_ok forallb] in Hw. nbool. apply nth_is_ws; [assumption|lia].
Qed.

Lemma cleaned_value u v w : ws_ok u = true -> wf v = true -> ws_ok w = true -> cleaned (u ++ render v ++ w) = Some (trimmed u v w).
Proof.
  intros Hu Hv Hw. pose proof (clean_exact (u ++ render v ++ w)) as H. rewrite cleanValueString_value in H by assumption.
  destruct (cleaned (u ++ render v ++ w)); congruence.
Qed.

(** ** Listing an object *)
Lemma clean_open c w : is_ws c = false -> c <> 34 -> ws_ok w = true -> cleanValueString (c :: w) = Ok (c :: firstn 1 w).
Proof.
  intros Hc Hq Hw. unfold cleanValueString.
  assert (T1 : trim1 (c :: w) = c :: w) by (apply (trim1_ws [] c w); [reflexivity|exact Hc]). rewrite T1, Nat.sub_diag. cbn [nth].
  rewrite (eqb_false c 34) by exact Hq. cbn [andb length pred]. destruct w as [|x w]; [reflexivity|].
  rewrite cvs_end_one; [reflexivity|intros k Hk|cbn; lia].
  cbn [length] in Hk. destruct k as [|[|k]]; try lia. cbn [nth]. cbn [ws_ok forallb] in Hw. nbool. apply nth_is_ws; [assumption|lia].
Qed.

Lemma get_values_empty d p w : wf_doc d = true -> lookup (d_val d) p = Some (JObj w []) ->
  GetValues (text d) p = if bytes_eqb (text d) (b "{}") then Err EEmpty else Ok [123 :: firstn 1 w].
Proof.
  intros Hw Hl. destruct (lookup_focus _ _ _ Hl) as (pre & post & Hf).
  pose proof (text_focus _ _ _ _ _ Hf) as Ht.
  assert (Hwa : wf (JObj w []) = true) by (eapply focus_wf; [exact Hf|apply wf_doc_inv in Hw; tauto]).
  rewrite wf_obj in Hwa. nbool.
  unfold GetValues. destruct (bytes_eqb_spec (text d) (b "{}")) as [E|E]; [reflexivity|].
  rewrite (start_of_present _ _ _ _ _ Hw Hf). cbn [bind].
  rewrite (at_start _ _ _ _ _ 123 (w ++ join (map mem_text []) ++ [125]) Hf eq_refl).
  cbn [bind]. change (123 =? 123) with true. cbv beta iota.
  rewrite (obj_text_at _ _ _ _ _ _ Hf). cbn [map join app].
  cbn [values_loop]. change (123 =? 34) with false. change (is_open 123) with true. cbv beta iota.
  rewrite <- length_snoc with (c := 123).
  rewrite (ws_exact (text d) _ (fun r i q l (_ : nat * nat) => values_loop (text d) r i (length (d_pre d ++ pre)) l q)) with (w := w); [| |exact (O, O)| |].
  - cbn [values_loop]. change (125 =? 34) with false. change (is_open 125) with false. change (is_close 125) with true.
    cbn [Nat.eqb].
    rewrite (slice_app_eq _ (d_pre d ++ pre) (123 :: w) (125 :: post ++ d_post d));
      [|rewrite Ht, render_obj; cbn [map join]; same_text|reflexivity|len].
    cbn [bind]. rewrite clean_open by (try assumption; try discriminate; reflexivity). reflexivity.
  - intros pre0 c r0 l0 e HH Hp. cbn [values_loop]. pose proof Hp as H'. apply plain_neq in H'.
    rewrite (plain_not_open _ Hp), (plain_not_close _ Hp), !eqb_false by tauto. reflexivity.
  - assumption.
  - rewrite Ht, render_obj. cbn [map join]. same_text.
Qed.

Lemma get_keys_values_empty d p w : wf_doc d = true -> lookup (d_val d) p = Some (JObj w []) ->
  GetKeysValues (text d) p = if bytes_eqb (text d) (b "{}") then Err EEmpty else Ok ([], [123 :: firstn 1 w]).
Proof.
  intros Hw Hl. destruct (lookup_focus _ _ _ Hl) as (pre & post & Hf).
  pose proof (text_focus _ _ _ _ _ Hf) as Ht.
  assert (Hwa : wf (JObj w []) = true) by (eapply focus_wf; [exact Hf|apply wf_doc_inv in Hw; tauto]).
  rewrite wf_obj in Hwa. nbool.
  unfold GetKeysValues. destruct (bytes_eqb_spec (text d) (b "{}")) as [E|E]; [reflexivity|].
  rewrite (start_of_present _ _ _ _ _ Hw Hf). cbn [bind].
  rewrite (at_start _ _ _ _ _ 123 (w ++ join (map mem_text []) ++ [125]) Hf eq_refl).
  cbn [bind]. change (123 =? 123) with true. cbv beta iota.
  rewrite (obj_text_at _ _ _ _ _ _ Hf). cbn [map join app].
  cbn [kvs_loop]. change (123 =? 34) with false. change (is_open 123) with true. cbv beta iota.
  rewrite <- length_snoc with (c := 123).
  rewrite (ws_exact (text d) _ (fun r i q l e => kvs_loop (text d) r i (length (d_pre d ++ pre)) l (fst e) (snd e) q)) with (e := (O, O)) (w := w).
  - cbn [kvs_loop fst snd]. change (125 =? 34) with false. change (is_open 125) with false. change (is_close 125) with true.
    cbn [Nat.eqb].
    rewrite (slice_app_eq _ (d_pre d ++ pre) (123 :: w) (125 :: post ++ d_post d));
      [|rewrite Ht, render_obj; cbn [map join]; same_text|reflexivity|len].
    cbn [bind]. rewrite clean_open by (try assumption; try discriminate; reflexivity). reflexivity.
  - intros pre0 c r0 l0 e HH Hp. cbn [kvs_loop]. pose proof Hp as H'. apply plain_neq in H'.
    rewrite (plain_not_open _ Hp), (plain_not_close _ Hp), !eqb_false by tauto. reflexivity.
  - assumption.
  - rewrite Ht, render_obj. cbn [map join]. same_text.
Qed.

Lemma fwd_trim_at json s i : (s < i)%nat -> space (nth s json 0) = false -> fwd_trim json s i = s.
Proof.
  intros H Hs. unfold fwd_trim. rewrite (find_first _ _ _ O); [apply Nat.add_0_r|lia|intros; lia|].
  rewrite Nat.add_0_r, Hs. reflexivity.
Qed.

Lemma iterate_kv_empty {St} (cb : St -> bytes -> bytes -> St * (bool * option err)) d p w s :
  wf_doc d = true -> lookup (d_val d) p = Some (JObj w []) ->
  IterateKeyValue (text d) cb p s = if bytes_eqb (text d) (b "{}") then IDone s (Some EEmpty) else IDone (fst (cb s [] [123])) None.
Proof.
  intros Hw Hl. destruct (lookup_focus _ _ _ Hl) as (pre & post & Hf).
  pose proof (text_focus _ _ _ _ _ Hf) as Ht.
  assert (Hwa : wf (JObj w []) = true) by (eapply focus_wf; [exact Hf|apply wf_doc_inv in Hw; tauto]).
  rewrite wf_obj in Hwa. nbool.
  destruct (bytes_eqb_spec (text d) (b "{}")) as [E|E].
  { unfold IterateKeyValue. rewrite E. reflexivity. }
  rewrite (iterate_kv_enter cb d p pre w [] post s Hw Hf E). cbn [map join app].
  set (q := d_pre d ++ pre) in *.
  assert (Hj : text d = q ++ 123 :: w ++ 125 :: post ++ d_post d) by (rewrite Ht, render_obj; cbn [map join]; subst q; same_text).
  rewrite <- length_snoc with (c := 123).
  rewrite (ws_exact (text d) _ (fun r i inq l e => iter_kv (text d) cb r i (length q) 0 l (fst e) (snd e) inq [] s)) with (e := (O, O)) (w := w).
  - cbn [iter_kv fst snd]. change (125 =? 34) with false. change (is_open 125) with false. change (is_close 125) with true.
    change (125 =? 125) with true. cbn [Nat.eqb andb].
    assert (N1 : nth (length q) (text d) 0 = 123) by (rewrite Hj; apply nth_at).
    rewrite fwd_trim_at; [|len|rewrite N1; reflexivity].
    assert (Hb : back_trim (text d) (length q) (length ((q ++ [123]) ++ w)) 0 = length q).
    { unfold back_trim. rewrite (find_last _ _ _ O); [apply Nat.add_0_r|len| |].
      - intros j Hjj. rewrite Hj. replace (q ++ 123 :: w ++ 125 :: post ++ d_post d) with ((q ++ [123]) ++ w ++ 125 :: post ++ d_post d) by same_text.
        replace (length q + j)%nat with (length (q ++ [123%N]) + (j - 1))%nat by len. apply nth_ws; [assumption|]. revert Hjj. len.
      - rewrite Nat.add_0_r, N1. reflexivity. }
    rewrite Hb. unfold kv_value. rewrite (at_app_eq _ q 123 (w ++ 125 :: post ++ d_post d) _ Hj eq_refl). cbn [bind].
    change (123 =? 34) with false. cbv beta iota.
    rewrite (slice_app_eq _ q [123] (w ++ 125 :: post ++ d_post d)); [reflexivity|exact Hj|reflexivity|len].
  - intros pre0 c r0 l0 e HH Hp. cbn [iter_kv]. pose proof Hp as H'. apply plain_neq in H'.
    rewrite (plain_not_open _ Hp), (plain_not_close _ Hp), !eqb_false by tauto. rewrite !andb_false_r. reflexivity.
  - assumption.
  - rewrite Hj. same_text.
Qed.

(** ** Maps *)
Lemma closed_dec d p v post : {closed_after d p v post} + {~ closed_after d p v post}.
Proof.
  unfold closed_after. destruct p as [|x p]; [left; left; reflexivity|].
  destruct (post ++ d_post d) as [|c r]; [right; intros [H|[r H]]; discriminate|].
  destruct (N.eq_dec c (closing v)) as [->|H]; [left; right; eauto|right; intros [E|[r' E]]; [discriminate|]].
  injection E as E _. contradiction.
Qed.

Lemma getmap_proper d p pre v post : wf_doc d = true -> focus (d_val d) p pre v post -> container v = true ->
  text d <> b "[]" -> text d <> b "{}" -> closed_after d p v post ->
  exists m, GetMap (text d) p = Ok (Some m) /\
    map_of m (match v with
              | JObj w ms => object_pairs ms
              | JArr w els => numbered (fun i => itoa (Z.of_nat i)) (array_items w els)
              | _ => []
              end).
Proof.
  intros Hw Hf Hc H1 H2 Hcl. assert (Hl := focus_lookup _ _ _ _ _ Hf).
  eexists (put_all _ []). split; [|apply put_all_map_of].
  unfold GetMap.
  destruct (bytes_eqb_spec (text d) (b "[]")) as [|_]; [contradiction|].
  destruct (bytes_eqb_spec (text d) (b "{}")) as [|E2]; [contradiction|]. cbn [orb].
  destruct (getmap_last d p pre v post Hw Hf Hc) as (e & E & He1 & He2). rewrite E. cbn [bind].
  assert (Ha : at_ (text d) e = Ok (closing v)).
  { destruct Hcl as [Hcl|(r & Hr)]; [apply He1; exact Hcl|]. destruct p; [apply He1; reflexivity|].
    exact (He2 ltac:(discriminate) _ _ Hr). }
  destruct v as [s|s|w els|w ms]; try discriminate.
  - rewrite (at_start _ _ _ _ _ 91 (w ++ join (map elem_text els) ++ [93]) Hf eq_refl). cbn [bind].
    change (91 =? 123) with false. change (91 =? 91) with true. cbv beta iota.
    rewrite Ha. cbn [bind]. change (closing (JArr w els) =? 93) with true. cbv beta iota.
    destruct els as [|e0 l].
    + rewrite (iterate_array_empty' _ d p w _ Hw Hl). destruct (bytes_eqb_spec (text d) (b "[]")); [contradiction|]. reflexivity.
    + rewrite (iterate_array _ d p w (e0 :: l) _ Hw Hl ltac:(discriminate)). rewrite visit_number. reflexivity.
  - rewrite (at_start _ _ _ _ _ 123 (w ++ join (map mem_text ms) ++ [125]) Hf eq_refl). cbn [bind].
    change (123 =? 123) with true. cbv beta iota.
    rewrite Ha. cbn [bind]. change (closing (JObj w ms) =? 125) with true. cbv beta iota.
    destruct ms as [|m l].
    + rewrite (iterate_kv_empty _ d p w _ Hw Hl). destruct (bytes_eqb_spec (text d) (b "{}")); [contradiction|]. reflexivity.
    + rewrite (iterate_kv (St := gomap) _ d p w (m :: l) [] Hw Hl ltac:(discriminate)). rewrite !visit_put. reflexivity.
Qed.

Lemma getmap_none json p : json = b "[]" \/ json = b "{}" -> GetMap json p = Ok None.
Proof. intros [->| ->]; reflexivity. Qed.

Lemma getmap_error d p pre v post : wf_doc d = true -> focus (d_val d) p pre v post -> container v = true ->
  ~ closed_after d p v post -> GetMap (text d) p = Err (EBadJSON (length (d_pre d ++ pre))).
Proof.
  intros Hw Hf Hc Hcl.
  assert (Hp : p <> []) by (intro Hp; apply Hcl; left; exact Hp).
  unfold GetMap.
  assert (Hent : bytes_eqb (text d) (b "[]") || bytes_eqb (text d) (b "{}") = false).
  { pose proof (text_focus _ _ _ _ _ Hf) as Ht.
    destruct (bytes_eqb (text d) (b "[]") || bytes_eqb (text d) (b "{}")) eqn:Ee; [exfalso|reflexivity].
    assert (Hlen : length (text d) = 2%nat).
    { apply orb_true_iff in Ee. destruct Ee as [Ee|Ee]; apply bytes_eqb_eq in Ee; rewrite Ee; reflexivity. }
    rewrite Ht in Hlen. destruct v as [s|s|w els|w ms]; try discriminate;
    (inversion Hf; subst; [contradiction| |]; unfold arr_pre, arr_post, obj_pre, obj_kpre, obj_post in Hlen; rewrite ?render_arr, ?render_obj in Hlen; revert Hlen; len). }
  rewrite Hent.
  destruct (getmap_last d p pre v post Hw Hf Hc) as (e & E & _ & He2). specialize (He2 Hp). rewrite E. cbn [bind].
  assert (Hx : exists c r, post ++ d_post d = c :: r /\ c <> closing v).
  { destruct (post ++ d_post d) as [|c r] eqn:Er.
    - exfalso. apply (f_equal (@length N)) in Er. inversion Hf; subst; [contradiction| |]; unfold arr_post, obj_post in Er; revert Er; len.
    - exists c, r. split; [reflexivity|]. intros ->. apply Hcl. right. eauto. }
  destruct Hx as (c & r & Er & Hn). rewrite (He2 c r Er).
  destruct v as [s|s|w els|w ms]; try discriminate.
  - rewrite (at_start _ _ _ _ _ 91 (w ++ join (map elem_text els) ++ [93]) Hf eq_refl). cbn [bind].
    change (91 =? 123) with false. change (91 =? 91) with true. cbv beta iota. cbn [closing] in Hn.
    rewrite (eqb_false c 93) by exact Hn. reflexivity.
  - rewrite (at_start _ _ _ _ _ 123 (w ++ join (map mem_text ms) ++ [125]) Hf eq_refl). cbn [bind].
    change (123 =? 123) with true. cbv beta iota. cbn [closing] in Hn.
    rewrite (eqb_false c 125) by exact Hn. reflexivity.
Qed.

(** A value that is not a container: the error names the position of the value, inside its quotation marks if it
    is a string below the root. *)
Lemma getmap_scalar d p pre v post : wf_doc d = true -> focus (d_val d) p pre v post -> container v = false ->
  GetMap (text d) p = Err (EBadJSON (length (d_pre d ++ pre) + match p with [] => 0 | _ => if is_str v then 1 else 0 end)).
Proof.
  intros Hw Hf Hc. pose proof (text_focus _ _ _ _ _ Hf) as Ht.
  assert (Hv : wf v = true) by (eapply focus_wf; [exact Hf|apply wf_doc_inv in Hw; tauto]).
  pose proof (focus_lookup _ _ _ _ _ Hf) as Hl.
  destruct (render_cons v Hv) as (c & r & E & Hcw). destruct (render_first v c r Hv E) as (Ec1 & Ec2 & Ec3).
  assert (Hent : bytes_eqb (text d) (b "[]") || bytes_eqb (text d) (b "{}") = false).
  { destruct (bytes_eqb (text d) (b "[]") || bytes_eqb (text d) (b "{}")) eqn:Ee; [exfalso|reflexivity].
    destruct p as [|x p].
    - inversion Hf; subst. cbn [app] in Ht. apply wf_doc_inv in Hw. destruct Hw as (W1 & _ & _).
      rewrite Ht, E in Ee. destruct (d_pre d) as [|y w]; cbn [app] in Ee.
      + apply orb_true_iff in Ee. destruct Ee as [Ee|Ee]; apply bytes_eqb_eq in Ee; injection Ee as -> _.
        * destruct (d_val d); discriminate.
        * destruct (d_val d); discriminate.
      + cbn [ws_ok forallb] in W1. apply andb_true_iff in W1. destruct W1 as [W1 _].
        apply orb_true_iff in Ee. destruct Ee as [Ee|Ee]; apply bytes_eqb_eq in Ee; injection Ee as -> _; discriminate W1.
    - assert (Hlen : length (text d) = 2%nat).
      { apply orb_true_iff in Ee. destruct Ee as [Ee|Ee]; apply bytes_eqb_eq in Ee; rewrite Ee; reflexivity. }
      rewrite Ht, E in Hlen. inversion Hf; subst; unfold arr_pre, arr_post, obj_pre, obj_kpre, obj_post in Hlen; revert Hlen; len. }
  assert (Hns : (c =? 123) = false /\ (c =? 91) = false) by (rewrite Ec1, Ec2; destruct v; try discriminate Hc; split; reflexivity).
  unfold GetMap. rewrite Hent. unfold getStartEnd. destruct p as [|x p].
  - inversion Hf; subst. rewrite app_nil_r, Nat.add_0_r in *.
    destruct (Nat.ltb_spec (length (text d)) 2) as [H2|H2].
    { cbn [bind]. rewrite Ht, E in H2. destruct (d_pre d); [reflexivity|]. exfalso. revert H2. len. }
    pose proof (start_of_present d [] [] (d_val d) [] Hw Hf) as Hs. cbn [start_of] in Hs. rewrite Hs. rewrite app_nil_r in *. cbn [bind].
    rewrite (at_app_eq _ (d_pre d) c (r ++ d_post d)); [|rewrite Ht, E; reflexivity|reflexivity]. cbn [bind].
    destruct Hns as [-> ->]. reflexivity.
  - assert (H2 : (length (text d) <? 2)%nat = false).
    { apply Nat.ltb_ge. rewrite Ht, E. inversion Hf; subst; unfold arr_pre, arr_post, obj_pre, obj_kpre, obj_post; len. }
    rewrite H2. destruct (core_present d (x :: p) pre v post Hw ltac:(discriminate) Hf) as (ks & Hcore). rewrite (Hcore false).
    cbn [bind]. destruct v as [s|s|w els|w ms]; try discriminate Hc; cbn [qoff is_str bare].
    + rewrite Nat.add_0_r. rewrite (at_start _ _ _ _ _ c r Hf E). cbn [bind]. destruct Hns as [-> ->]. reflexivity.
    + cbn [render] in *. injection E as <- E.
      destruct (at_ (text d) (length (d_pre d ++ pre) + 1)) as [y|e|] eqn:Ea.
      * cbn [bind]. rewrite (at_app_eq _ (d_pre d ++ pre ++ 34 :: s) 34 (post ++ d_post d)); [|rewrite Ht; same_text|len].
        cbn [bind]. change (34 =? 125) with false. change (34 =? 93) with false. cbv beta iota.
        destruct (y =? 123), (y =? 91); reflexivity.
      * exfalso. unfold at_ in Ea. destruct (nth_error _ _); discriminate.
      * exfalso. unfold at_ in Ea. destruct (nth_error (text d) (length (d_pre d ++ pre) + 1)) eqn:En; [discriminate|].
        apply nth_error_None in En. rewrite Ht in En. revert En. len.
Qed.

(** ** Arrays *)
Lemma split_blank {A} (mid fin : bytes -> res A) w : ws_ok w = true ->
  split_loop mid fin (render (JArr w [])) (render (JArr w [])) 0 1 0 false = convert mid fin [w].
Proof.
  intro Hw. cbn [render map join app]. set (arr := 91 :: w ++ [93]).
  assert (E : split_loop mid fin arr arr 0 1 0 false = split_loop mid fin arr (w ++ [93]) 1 1 1 false) by reflexivity.
  rewrite E. pose proof (Jumps_ws _ (split_jumper mid fin arr 1) 1 w ltac:(lia) Hw [93] 1%nat 1%Z ltac:(lia)) as J.
  cbv beta in J. rewrite J. cbn [split_loop]. change (93 =? 92) with false. change (93 =? 34) with false.
  cbn [is_open is_close N.eqb Pos.eqb orb andb Z.sub Z.eqb Z.add Z.opp Z.pos_sub].
  rewrite (slice_app_eq _ [91] w [93]); [reflexivity|reflexivity|reflexivity|reflexivity].
Qed.

Definition texts (w : bytes) (els : list (elem jv)) : list bytes :=
  match els with [] => [w] | _ => map elem_text (absorb_e w els) end.

Lemma split_texts {A} (mid fin : bytes -> res A) w els : wf (JArr w els) = true ->
  split_loop mid fin (render (JArr w els)) (render (JArr w els)) 0 1 0 false = convert mid fin (texts w els).
Proof.
  intro Hv. destruct els as [|e l].
  - apply split_blank. rewrite wf_arr in Hv. nbool. assumption.
  - apply split_all; [discriminate|exact Hv|reflexivity].
Qed.

Lemma clean_elems els : forallb elem_ok els = true ->
  Forall2 (fun v t => cleanValueString v = Ok t) (map elem_text els) (map (fun e => trimmed (e_pre e) (e_val e) (e_post e)) els).
Proof.
  induction els as [|e l IH]; intro H; [constructor|]. cbn [forallb] in H. nbool. cbn [map]. constructor; [|apply IH; assumption].
  unfold elem_ok, elem_text in *. nbool. apply cleanValueString_value; assumption.
Qed.

Lemma clean_texts w els : wf (JArr w els) = true ->
  match listing w els with
  | Some ts => Forall2 (fun v t => cleanValueString v = Ok t) (texts w els) ts
  | None => els = [] /\ cleanValueString w = Panic
  end.
Proof.
  intro Hv. destruct els as [|e l].
  - rewrite wf_arr in Hv. nbool. cbn [listing texts]. pose proof (clean_blanks w ltac:(assumption)) as Hb.
    destruct (blanks w); [constructor; [exact Hb|constructor]|auto].
  - cbn [listing texts listed]. exact (clean_elems (absorb_e w (e :: l)) (absorb_e_ok _ _ Hv)).
Qed.

Definition opt_res {A} (er : bytes -> err) (t : bytes) (o : option A) : res A := match o with Some a => Ok a | None => Err (er t) end.

(** What the conversion of the texts gives; [last] is the error of the last one. *)
Definition converted {A} (f : bytes -> option A) (er : bytes -> err) (last : bytes -> res (list A)) (ts : list bytes) : res (list A) :=
  match conversions f ts with
  | (l, None) => Ok l
  | (l, Some t) => if (S (length l) =? length ts)%nat then last t else Err (er t)
  end.

Lemma convert_conversions {A} (mid fin : bytes -> res A) f er (lst : bytes -> res (list A)) xs ts :
  (forall v t, cleanValueString v = Ok t -> mid v = opt_res er t (f t)) ->
  (forall v t a, cleanValueString v = Ok t -> f t = Some a -> fin v = Ok a) ->
  (forall v t, cleanValueString v = Ok t -> f t = None -> (do a <- fin v; Ok [a]) = lst t) ->
  Forall2 (fun v t => cleanValueString v = Ok t) xs ts ->
  (forall t, f t = None -> match lst t with Ok _ => False | _ => True end) ->
  convert mid fin xs = converted f er lst ts.
Proof.
  intros Hm Hf Hl HF Hn. induction HF as [|v t xs ts Hv HF IH]; [reflexivity|].
  destruct xs as [|v2 xs].
  - inversion HF; subst. unfold converted. cbn [convert conversions length Nat.eqb]. destruct (f t) as [a|] eqn:Ef.
    + rewrite (Hf _ _ _ Hv Ef). reflexivity.
    + cbn [length Nat.eqb]. apply Hl; assumption.
  - change (convert mid fin (v :: v2 :: xs)) with (do a <- mid v; do l <- convert mid fin (v2 :: xs); Ok (a :: l)).
    rewrite (Hm _ _ Hv). unfold opt_res. inversion HF as [|? t2 ? ts2 H1 H2]; subst. unfold converted in *.
    remember (t2 :: ts2) as ts'. cbn [conversions]. destruct (f t) as [a|] eqn:Ef.
    + cbn [bind]. rewrite IH. destruct (conversions f ts') as [l [t'|]] eqn:Ec; [|reflexivity].
      change (S (length (a :: l)) =? length (t :: ts'))%nat with (S (length l) =? length ts')%nat.
      destruct (S (length l) =? length ts')%nat; [|reflexivity].
      specialize (Hn t'). destruct (lst t'); try reflexivity. exfalso. apply Hn.
      clear - Ec. revert l Ec. induction ts' as [|x ts' IH]; intros l Ec; cbn in Ec; [discriminate|].
      destruct (f x) eqn:Ex; [|injection Ec as <- <-; exact Ex]. destruct (conversions f ts') as [l' e]. injection Ec as <- ->. eauto.
    + cbn [bind length]. subst ts'. reflexivity.
Qed.

Lemma arr_two w els : (2 <= length (render (JArr w els)))%nat.
Proof. rewrite render_arr. len. Qed.

Lemma parse_array_exact w els : wf (JArr w els) = true ->
  ParseArray (render (JArr w els)) =
  match w, els with
  | [], [] => Ok (Some [])
  | _, _ => match listing w els with Some ts => Ok (Some ts) | None => Panic end
  end.
Proof.
  intro Hv. unfold ParseArray. pose proof (arr_two w els) as H2. rewrite (proj2 (Nat.ltb_ge _ _)) by lia. rewrite arr_bracketed.
  assert (Hc : split_loop cleanValueString cleanValueString (render (JArr w els)) (render (JArr w els)) 0 1 0 false =
               match listing w els with Some ts => Ok ts | None => Panic end).
  { rewrite split_texts by exact Hv. pose proof (clean_texts w els Hv) as Ht. destruct (listing w els) as [ts|].
    - rewrite (convert_conversions _ _ (fun t => Some t) EIntegerParse (fun t => Err (EIntegerParse t)) _ ts).
      + unfold converted. replace (conversions (fun t => Some t) ts) with (ts, @None bytes); [reflexivity|].
        clear. induction ts as [|t ts IH]; [reflexivity|]. cbn [conversions]. rewrite <- IH. reflexivity.
      + intros v t H. exact H.
      + intros v t a H1 H. injection H as <-. exact H1.
      + discriminate.
      + exact Ht.
      + discriminate.
    - destruct Ht as [-> Ht]. cbn [texts convert]. rewrite Ht. reflexivity. }
  rewrite Hc. destruct w as [|c w].
  - destruct els as [|e l]; [reflexivity|]. pose proof (arr_len [] (e :: l) Hv ltac:(discriminate)) as H3.
    rewrite (proj2 (Nat.eqb_neq _ _)) by lia. reflexivity.
  - replace (length (render (JArr (c :: w) els)) =? 2)%nat with false.
    + destruct (listing (c :: w) els); reflexivity.
    + symmetry. apply Nat.eqb_neq. rewrite render_arr. len.
Qed.

(** A document with whitespace around its root value is not taken for an array. *)
Lemma root_not_bracketed d : wf_doc d = true -> ~ (d_pre d = [] /\ d_post d = []) -> bracketed (text d) = false.
Proof.
  intros Hw Hn. apply wf_doc_inv in Hw. destruct Hw as (H1 & _ & H3). unfold bracketed, text.
  destruct (d_pre d) as [|c w].
  - destruct (exists_last (l := d_post d)) as (q & x & E); [intro E; apply Hn; auto|]. rewrite E.
    replace (last ([] ++ render (d_val d) ++ q ++ [x]) 0) with x by (rewrite !app_assoc, last_last; reflexivity).
    assert (Hx : is_ws x = true).
    { unfold ws_ok in H3. rewrite forallb_forall in H3. apply H3. rewrite E. apply in_or_app. right. left. reflexivity. }
    rewrite (eqb_false x 93); [apply andb_false_r|]. intros ->. discriminate Hx.
  - cbn [app hd]. cbn [ws_ok forallb] in H1. nbool. rewrite (eqb_false c 91); [reflexivity|]. intros ->. discriminate.
Qed.

Lemma whole_dec d p : {whole d p} + {p = [] /\ ~ (d_pre d = [] /\ d_post d = [])}.
Proof.
  unfold whole. destruct p as [|x p]; [|left; left; discriminate].
  destruct (d_pre d) as [|c w]; [destruct (d_post d) as [|c w]|]; [left; right; auto| |]; right; (split; [reflexivity|]);
  intros [? ?]; discriminate.
Qed.

Definition array_result {A} (er : bytes -> err) (d : doc) (p : list bytes) (r : res A) : res A :=
  match p with
  | [] => match d_pre d, d_post d with [], [] => r | _, _ => Err (er (text d)) end
  | _ => r
  end.

(** All the array getters read the array alike. *)
Lemma array_getter {A} (er : bytes -> err) (k : bytes -> res A) d p w els :
  wf_doc d = true -> lookup (d_val d) p = Some (JArr w els) ->
  (do val <- GetString (text d) p;
   if (length val <? 2)%nat then Err (er val) else if bracketed val then k val else Err (er val)) =
  array_result er d p (k (render (JArr w els))).
Proof.
  intros Hw Hl. destruct (whole_dec d p) as [Hwh|[-> Hn]].
  - rewrite (get_whole d p _ Hw Hwh Hl eq_refl). cbn [bind]. pose proof (arr_two w els) as H2.
    rewrite (proj2 (Nat.ltb_ge _ _)) by lia. rewrite arr_bracketed. unfold array_result.
    destruct p; [|reflexivity]. destruct Hwh as [Hwh|[-> ->]]; [contradiction|reflexivity].
  - unfold GetString, Get. cbn [bind]. rewrite (root_not_bracketed d Hw Hn). unfold array_result.
    replace (match d_pre d, d_post d with [], [] => k (render (JArr w els)) | _, _ => Err (er (text d)) end) with (@Err A (er (text d))).
    + destruct (length (text d) <? 2)%nat; reflexivity.
    + destruct (d_pre d); [destruct (d_post d)|]; try reflexivity. exfalso. apply Hn. auto.
Qed.

Lemma get_string_array_exact d p w els : wf_doc d = true -> lookup (d_val d) p = Some (JArr w els) ->
  GetStringArray (text d) p =
  array_result EStringArrayParse d p
    (match w, els with
     | [], [] => Ok []
     | _, _ => match listing w els with Some ts => Ok ts | None => Panic end
     end).
Proof.
  intros Hw Hl. pose proof (lookup_wf _ _ _ Hw Hl) as Hv. unfold GetStringArray.
  rewrite (array_getter EStringArrayParse (fun val => do o <- ParseArray val; match o with Some l => Ok l | None => Err (EStringArrayParse val) end) d p w els Hw Hl).
  rewrite parse_array_exact by exact Hv. f_equal.
  destruct w; [destruct els|]; try reflexivity; match goal with |- context [listing ?x ?y] => destruct (listing x y); reflexivity end.
Qed.

Lemma get_int_array_exact d p w els : wf_doc d = true -> lookup (d_val d) p = Some (JArr w els) ->
  GetIntArray (text d) p =
  array_result EIntegerArrayParse d p
    (match listing w els with
     | None => Panic
     | Some ts => match conversions atoi ts with (l, None) => Ok l | (_, Some t) => Err (EIntegerParse t) end
     end).
Proof.
  intros Hw Hl. pose proof (lookup_wf _ _ _ Hw Hl) as Hv. unfold GetIntArray.
  rewrite (array_getter EIntegerArrayParse (fun val => split_loop int_elem int_elem val val 0 1 0 false) d p w els Hw Hl).
  rewrite split_texts by exact Hv. f_equal. pose proof (clean_texts w els Hv) as Ht. destruct (listing w els) as [ts|].
  - rewrite (convert_conversions _ _ atoi EIntegerParse (fun t => Err (EIntegerParse t)) _ ts); [| | | |exact Ht|].
    + unfold converted. destruct (conversions atoi ts) as [l [t|]]; [|reflexivity]. destruct (S (length l) =? length ts)%nat; reflexivity.
    + intros v t H. unfold int_elem. rewrite H. reflexivity.
    + intros v t a H H'. unfold int_elem. rewrite H. cbn [bind]. rewrite H'. reflexivity.
    + intros v t H H'. unfold int_elem. rewrite H. cbn [bind]. rewrite H'. reflexivity.
    + exact (fun _ _ => I).
  - destruct Ht as [-> Ht]. cbn [texts convert]. unfold int_elem. rewrite Ht. reflexivity.
Qed.

Lemma get_float_array_exact {F} (pf : bytes -> option F) d p w els : wf_doc d = true -> lookup (d_val d) p = Some (JArr w els) ->
  GetFloatArray pf (text d) p =
  array_result EFloatArrayParse d p
    (match listing w els with
     | None => Panic
     | Some ts => match conversions pf ts with (l, None) => Ok l | (_, Some t) => Err (EFloatParse t) end
     end).
Proof.
  intros Hw Hl. pose proof (lookup_wf _ _ _ Hw Hl) as Hv. unfold GetFloatArray.
  rewrite (array_getter EFloatArrayParse (fun val => split_loop (float_elem pf) (float_elem pf) val val 0 1 0 false) d p w els Hw Hl).
  rewrite split_texts by exact Hv. f_equal. pose proof (clean_texts w els Hv) as Ht. destruct (listing w els) as [ts|].
  - rewrite (convert_conversions _ _ pf EFloatParse (fun t => Err (EFloatParse t)) _ ts); [| | | |exact Ht|].
    + unfold converted. destruct (conversions pf ts) as [l [t|]]; [|reflexivity]. destruct (S (length l) =? length ts)%nat; reflexivity.
    + intros v t H. unfold float_elem. rewrite H. reflexivity.
    + intros v t a H H'. unfold float_elem. rewrite H. cbn [bind]. rewrite H'. reflexivity.
    + intros v t H H'. unfold float_elem. rewrite H. cbn [bind]. rewrite H'. reflexivity.
    + exact (fun _ _ => I).
  - destruct Ht as [-> Ht]. cbn [texts convert]. unfold float_elem. rewrite Ht. reflexivity.
Qed.

Lemma get_bool_array_exact d p w els : wf_doc d = true -> lookup (d_val d) p = Some (JArr w els) ->
  GetBoolArray (text d) p =
  array_result EBoolArrayParse d p
    (match listing w els with
     | None => Panic
     | Some ts => match conversions unbool ts with
                  | (l, None) => Ok l
                  | (l, Some t) =>
                      if (S (length l) =? length ts)%nat
                      then match cleaned t with Some t' => Err (EBoolParse t') | None => Panic end
                      else Err (EBoolParse t)
                  end
     end).
Proof.
  intros Hw Hl. pose proof (lookup_wf _ _ _ Hw Hl) as Hv. unfold GetBoolArray.
  rewrite (array_getter EBoolArrayParse (fun val => split_loop bool_mid bool_fin val val 0 1 0 false) d p w els Hw Hl).
  rewrite split_texts by exact Hv. f_equal. pose proof (clean_texts w els Hv) as Ht. destruct (listing w els) as [ts|].
  - rewrite (convert_conversions _ _ unbool EBoolParse (fun t => match cleaned t with Some t' => Err (EBoolParse t') | None => Panic end) _ ts);
      [| | | |exact Ht|].
    + reflexivity.
    + intros v t H. unfold bool_mid, unbool. rewrite H. cbn [bind].
      destruct (bytes_eqb t (b "true")); [reflexivity|]. destruct (bytes_eqb t (b "false")); reflexivity.
    + intros v t a H H'. eapply bool_conv; [exact H|]. rewrite H'. reflexivity.
    + intros v t H H'. unfold bool_fin, unbool in *. rewrite H. cbn [bind].
      destruct (bytes_eqb t (b "true")); [discriminate|]. destruct (bytes_eqb t (b "false")); [discriminate|].
      rewrite clean_exact. destruct (cleaned t); reflexivity.
    + intros t _. destruct (cleaned t); exact I.
  - destruct Ht as [-> Ht]. cbn [texts convert]. unfold bool_fin. rewrite Ht. reflexivity.
Qed.

Lemma array_result_whole {A} er d p (r : res A) : whole d p -> array_result er d p r = r.
Proof. intro H. unfold array_result. destruct p; [|reflexivity]. destruct H as [H|[-> ->]]; [contradiction|reflexivity]. Qed.
Lemma array_result_not {A} er d p (r : res A) : ~ whole d p -> array_result er d p r = Err (er (text d)).
Proof.
  intro H. unfold array_result. destruct p; [|exfalso; apply H; left; discriminate].
  destruct (d_pre d) eqn:E1; [destruct (d_post d) eqn:E2|]; try reflexivity. exfalso. apply H. right. auto.
Qed.

(** ** Restatements used by the property files *)
Lemma get_values_exact d p w ms : wf_doc d = true -> lookup (d_val d) p = Some (JObj w ms) ->
  GetValues (text d) p =
  if bytes_eqb (text d) (b "{}") then Err EEmpty
  else Ok (match ms with [] => [123 :: firstn 1 w] | _ => listed_values ms end).
Proof.
  intros Hw Hl. destruct ms as [|m l]; [apply get_values_empty; assumption|].
  rewrite (get_values_listed d p w _ Hw Hl ltac:(discriminate)). destruct (lookup_focus _ _ _ Hl) as (pre & post & Hf).
  destruct (bytes_eqb_spec (text d) (b "{}")) as [E|]; [|reflexivity]. destruct (obj_len _ _ _ _ _ _ Hf E). discriminate.
Qed.
Lemma get_keys_values_exact d p w ms : wf_doc d = true -> lookup (d_val d) p = Some (JObj w ms) ->
  GetKeysValues (text d) p =
  if bytes_eqb (text d) (b "{}") then Err EEmpty
  else Ok (keys ms, match ms with [] => [123 :: firstn 1 w] | _ => listed_values ms end).
Proof.
  intros Hw Hl. destruct ms as [|m l]; [apply get_keys_values_empty; assumption|].
  rewrite (get_keys_values_listed d p w _ Hw Hl ltac:(discriminate)). destruct (lookup_focus _ _ _ Hl) as (pre & post & Hf).
  destruct (bytes_eqb_spec (text d) (b "{}")) as [E|]; [|reflexivity]. destruct (obj_len _ _ _ _ _ _ Hf E). discriminate.
Qed.
Lemma iterate_kv_exact {St} (cb : St -> bytes -> bytes -> St * (bool * option err)) d p w ms s :
  wf_doc d = true -> lookup (d_val d) p = Some (JObj w ms) ->
  IterateKeyValue (text d) cb p s =
  if bytes_eqb (text d) (b "{}") then IDone s (Some EEmpty)
  else IDone (fst (visit (uncurry2 cb) (object_pairs ms) s)) (snd (visit (uncurry2 cb) (removelast (object_pairs ms)) s)).
Proof.
  intros Hw Hl. destruct ms as [|m l].
  - rewrite (iterate_kv_empty cb d p w s Hw Hl). destruct (bytes_eqb (text d) (b "{}")); [reflexivity|].
    cbn [object_pairs removelast visit uncurry2 fst snd]. unfold uncurry2. cbn [fst snd].
    destruct (cb s [] [123]) as [s' [go [er|]]]; [reflexivity|]. destruct go; reflexivity.
  - rewrite (iterate_kv cb d p w _ s Hw Hl ltac:(discriminate)). destruct (lookup_focus _ _ _ Hl) as (pre & post & Hf).
    destruct (bytes_eqb_spec (text d) (b "{}")) as [E|]; [|reflexivity]. destruct (obj_len _ _ _ _ _ _ Hf E). discriminate.
Qed.

Lemma get_map_exact d p pre v post : wf_doc d = true -> focus (d_val d) p pre v post -> container v = true ->
  (text d = b "[]" \/ text d = b "{}" -> GetMap (text d) p = Ok None) /\
  (text d <> b "[]" -> text d <> b "{}" -> closed_after d p v post ->
     exists m, GetMap (text d) p = Ok (Some m) /\
       map_of m (match v with
                 | JObj w ms => object_pairs ms
                 | JArr w els => numbered (fun i => itoa (Z.of_nat i)) (array_items w els)
                 | _ => []
                 end)) /\
  (~ closed_after d p v post -> GetMap (text d) p = Err (EBadJSON (length (d_pre d ++ pre)))).
Proof.
  intros Hw Hf Hc. split; [apply getmap_none|]. split; [exact (getmap_proper d p pre v post Hw Hf Hc)|exact (getmap_error d p pre v post Hw Hf Hc)].
Qed.

Lemma array_getters_exact d p w els : wf_doc d = true -> lookup (d_val d) p = Some (JArr w els) ->
  (whole d p -> GetStringArray (text d) p =
     match w, els with
     | [], [] => Ok []
     | _, _ => match listing w els with Some ts => Ok ts | None => Panic end
     end) /\
  (~ whole d p -> GetStringArray (text d) p = Err (EStringArrayParse (text d))).
Proof.
  intros Hw Hl. rewrite (get_string_array_exact d p w els Hw Hl). split; intro H; [apply array_result_whole; exact H|apply (array_result_not EStringArrayParse); exact H].
Qed.
Lemma int_array_exact d p w els : wf_doc d = true -> lookup (d_val d) p = Some (JArr w els) ->
  (whole d p -> GetIntArray (text d) p =
     match listing w els with
     | None => Panic
     | Some ts => match conversions atoi ts with (l, None) => Ok l | (_, Some t) => Err (EIntegerParse t) end
     end) /\
  (~ whole d p -> GetIntArray (text d) p = Err (EIntegerArrayParse (text d))).
Proof.
  intros Hw Hl. rewrite (get_int_array_exact d p w els Hw Hl). split; intro H; [apply array_result_whole; exact H|apply (array_result_not EIntegerArrayParse); exact H].
Qed.
Lemma float_array_exact {F} (pf : bytes -> option F) d p w els : wf_doc d = true -> lookup (d_val d) p = Some (JArr w els) ->
  (whole d p -> GetFloatArray pf (text d) p =
     match listing w els with
     | None => Panic
     | Some ts => match conversions pf ts with (l, None) => Ok l | (_, Some t) => Err (EFloatParse t) end
     end) /\
  (~ whole d p -> GetFloatArray pf (text d) p = Err (EFloatArrayParse (text d))).
Proof.
  intros Hw Hl. rewrite (get_float_array_exact pf d p w els Hw Hl). split; intro H; [apply array_result_whole; exact H|apply (array_result_not EFloatArrayParse); exact H].
Qed.
Lemma bool_array_exact d p w els : wf_doc d = true -> lookup (d_val d) p = Some (JArr w els) ->
  (whole d p -> GetBoolArray (text d) p =
     match listing w els with
     | None => Panic
     | Some ts => match conversions unbool ts with
                  | (l, None) => Ok l
                  | (l, Some t) =>
                      if (S (length l) =? length ts)%nat
                      then match cleaned t with Some t' => Err (EBoolParse t') | None => Panic end
                      else Err (EBoolParse t)
                  end
     end) /\
  (~ whole d p -> GetBoolArray (text d) p = Err (EBoolArrayParse (text d))).
Proof.
  intros Hw Hl. rewrite (get_bool_array_exact d p w els Hw Hl). split; intro H; [apply array_result_whole; exact H|apply (array_result_not EBoolArrayParse); exact H].
Qed.

(** The array functions see nothing but the text Get returns, so a string is read as the array its contents
    spell, and a text that is not enclosed in brackets is an error. *)
Lemma array_via_text d p v : wf_doc d = true -> p <> [] -> lookup (d_val d) p = Some v ->
  GetStringArray (text d) p = GetStringArray (bare v) [] /\ GetIntArray (text d) p = GetIntArray (bare v) [] /\
  GetBoolArray (text d) p = GetBoolArray (bare v) [] /\
  forall (F : Type) (pf : bytes -> option F), GetFloatArray pf (text d) p = GetFloatArray pf (bare v) [].
Proof.
  intros Hw Hp Hl. assert (Hg : GetString (text d) p = Ok (bare v)).
  { unfold GetString. rewrite (get_present d p v Hw Hp Hl). destruct v; reflexivity. }
  unfold GetStringArray, GetIntArray, GetBoolArray, GetFloatArray. rewrite Hg.
  assert (Hr : GetString (bare v) [] = Ok (bare v)) by reflexivity. rewrite Hr. repeat split.
Qed.
Lemma array_unbracketed t : hd 0 t <> 91 \/ last t 0 <> 93 ->
  GetStringArray t [] = Err (EStringArrayParse t) /\ GetIntArray t [] = Err (EIntegerArrayParse t) /\
  GetBoolArray t [] = Err (EBoolArrayParse t) /\
  forall (F : Type) (pf : bytes -> option F), GetFloatArray pf t [] = Err (EFloatArrayParse t).
Proof.
  intro H. assert (Hb : bracketed t = false).
  { unfold bracketed. destruct H as [H|H]; [rewrite (eqb_false _ 91) by exact H; reflexivity|rewrite (eqb_false _ 93) by exact H; apply andb_false_r]. }
  unfold GetStringArray, GetIntArray, GetBoolArray, GetFloatArray.
  assert (Hr : GetString t [] = Ok t) by reflexivity. rewrite Hr. cbn [bind]. rewrite Hb.
  destruct (length t <? 2)%nat; repeat split.
Qed.
