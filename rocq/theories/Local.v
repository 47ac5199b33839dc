(** [core] reads no further than the value: on any text that agrees with a document up to the end of the
    addressed value it gives the same positions. *)
From Verif Require Import GoStd Json Core Skip Focus CoreProofs SpecLocal.

Local Open Scope N_scope.

(** The scan standing at an opening bracket [op] after [pre], whatever follows. *)
Definition AtO (json : bytes) (path : list bytes) (r : res cst) (k : nat) (pre : bytes) (op : N) (rest : bytes) : Prop :=
  json = pre ++ op :: rest /\
  ((op = 91 /\ r = OUT json path k (CSt (length pre) 91 (nth k path []) None)) \/
   (op = 123 /\ exists s e o br, br <> 91 /\
      r = RK json path rest (S (length pre)) k (S k) false false s e (CSt o br (nth k path []) None))).

Lemma AtO_enter json path k pre op rest :
  (k < length path)%nat -> is_open op = true -> json = pre ++ op :: rest ->
  AtO json path (OUT json path k (CSt (length pre) op (nth k path []) None)) k pre op rest.
Proof.
  intros Hk Ho Hj. split; [exact Hj|]. apply open_cases in Ho. destruct Ho as [-> | ->]; [left|right].
  - split; reflexivity.
  - split; [reflexivity|]. exists O, O, (length pre), 123. split; [discriminate|].
    rewrite OUT_key; [|exact Hk|cbn; discriminate]. cbn [offset].
    assert (Hs : skipn (length pre) json = 123 :: rest) by (rewrite Hj, skipn_length_app; reflexivity).
    rewrite Hs. unfold RK. cbn [key_loop]. change (length pre <? 0)%nat with false.
    change (123 =? 34) with false. change (123 =? 58) with false. rewrite andb_false_r.
    change (123 =? 91) with false. change (123 =? 123) with true. reflexivity.
Qed.

(** Step into an element of an array that opens with [op]. *)
Lemma AtO_arr_step json path r k pre w l1 e op rest :
  ws_ok w = true -> forallb elem_ok l1 = true -> ws_ok (e_pre e) = true -> (S k < length path)%nat ->
  atoi (nth k path []) = Some (Z.of_nat (length l1)) -> is_open op = true ->
  AtO json path r k pre 91 (w ++ jpre (map elem_text l1) ++ e_pre e ++ op :: rest) ->
  AtO json path r (S k) (pre ++ arr_pre w l1 e) op rest.
Proof.
  intros Hw Hok He Hk Hx Ho [Hj [[_ Hr]|[E _]]]; [|discriminate].
  rewrite OUT_arr in Hr; [|lia|reflexivity].
  assert (Hj' : json = (pre ++ arr_pre w l1 e) ++ op :: rest).
  { rewrite Hj. unfold arr_pre. same_text. }
  assert (Hopw : is_ws op = false) by (apply open_cases in Ho; destruct Ho as [-> | ->]; reflexivity).
  unfold arr_step in Hr. cbn [cur offset keyst] in Hr. rewrite Hx in Hr.
  replace (S k =? length path)%nat with false in Hr by (symmetry; apply Nat.eqb_neq; lia).
  rewrite (nth_error_nth' path (S k) []) in Hr by lia.
  destruct l1 as [|x0 l1'] using rev_ind.
  - cbn [length Z.of_nat] in Hr. cbn [Z.eqb] in Hr.
    assert (Hs : skipn (S (length pre)) json = (w ++ e_pre e) ++ op :: rest).
    { rewrite Hj. replace (pre ++ 91 :: w ++ jpre (map elem_text []) ++ e_pre e ++ op :: rest)
        with ((pre ++ [91]) ++ (w ++ e_pre e) ++ op :: rest) by (cbn [map]; change (jpre []) with (@nil N); same_text).
      apply skipn_app_eq. rewrite length_snoc. reflexivity. }
    rewrite Hs in Hr. rewrite arr0_ws in Hr; [| |exact Hopw].
    + rewrite Ho in Hr. cbn [bind] in Hr. rewrite Hr.
      replace (S (length pre) + length (w ++ e_pre e))%nat with (length (pre ++ arr_pre w [] e))
        by (unfold arr_pre; cbn [map]; change (jpre []) with (@nil N); len).
      apply AtO_enter; assumption.
    + rewrite ws_ok_app, Hw. exact He.
  - clear IHl1'.
    replace (Z.of_nat (length (l1' ++ [x0])) =? 0)%Z with false in Hr.
    2:{ symmetry. apply Z.eqb_neq. rewrite app_length. cbn [length]. lia. }
    rewrite Hj in Hr at 2. rewrite skipn_length_app in Hr. cbn [arr_loop] in Hr.
    change (91 =? 34) with false in Hr. change (91 =? 44) with false in Hr.
    rewrite andb_false_r in Hr. change (is_open 91) with true in Hr. cbv iota in Hr.
    set (T := Z.of_nat (length (l1' ++ [x0]))) in *.
    destruct (Skips_ws _ _ _ _ _ (arr_scan json false T 0) 0 w Hw (pre ++ [91])
                (jpre (map elem_text (l1' ++ [x0])) ++ e_pre e ++ op :: rest) 1%nat tt) as [Hn1 [[] E1]].
    { rewrite Hj. same_text. }
    { apply nobs_snoc. discriminate. }
    { lia. }
    rewrite length_snoc in E1. rewrite E1 in Hr. clear E1.
    unfold T in Hr. rewrite arr_found_at in Hr; [|assumption|assumption|assumption| |assumption].
    2:{ rewrite Hj. same_text. }
    rewrite Ho in Hr. cbn [bind] in Hr. rewrite Hr.
    replace (length (((pre ++ [91]) ++ w) ++ jpre (map elem_text (l1' ++ [x0])) ++ e_pre e))
      with (length (pre ++ arr_pre w (l1' ++ [x0]) e)) by (unfold arr_pre; f_equal; same_text).
    apply AtO_enter; assumption.
Qed.

(** The text from the opening brace of an object to the value of member [m]. *)
Definition obj_in (w : bytes) (l1 : list (mem jv)) (m : mem jv) (rest : bytes) : bytes :=
  w ++ jpre (map mem_text l1) ++ mem_head m ++ 58 :: m_mid2 m ++ rest.

Lemma obj_in_pre pre w l1 m rest : pre ++ 123 :: obj_in w l1 m rest = (pre ++ obj_pre w l1 m) ++ rest.
Proof. unfold obj_in, obj_pre, obj_kpre, obj_mid, mem_head. same_text. Qed.

(** Step into a member of an object that opens with [op]. *)
Lemma AtO_obj_step json path r k pre w l1 m op rest :
  ws_ok w = true -> forallb mem_ok l1 = true -> mem_ok m = true -> (S k < length path)%nat ->
  nth k path [] = m_key m -> nokey (m_key m) l1 -> is_open op = true ->
  AtO json path r k pre 123 (obj_in w l1 m (op :: rest)) ->
  AtO json path r (S k) (pre ++ obj_pre w l1 m) op rest.
Proof.
  intros Hw Hok Hm Hk Hx Hnk Ho [Hj [[E _]|[_ (s & e & o & br & Hbr & Hr)]]]; [discriminate|].
  assert (Hj' : json = (pre ++ obj_pre w l1 m) ++ op :: rest) by (rewrite Hj; apply obj_in_pre).
  unshelve epose proof (key_found json path (pre ++ [123]) w l1 m (m_mid2 m ++ op :: rest)
              k (CSt o br (nth k path []) None) s e _ _ _ _ _ _ _) as E1.
  { assumption. } { assumption. } { assumption. } { apply nobs_snoc. discriminate. }
  { rewrite Hj. unfold obj_in. same_text. } { assumption. } { assumption. }
  cbv zeta in E1. rewrite length_snoc in E1.
  replace (S k =? length path)%nat with false in E1 by (symmetry; apply Nat.eqb_neq; lia).
  unfold RK, obj_in in Hr. rewrite E1 in Hr. clear E1.
  assert (Hokm := Hm). unfold mem_ok in Hm. nbool.
  set (p := (pre ++ [123]) ++ w ++ jpre (map mem_text l1)) in *.
  rewrite key_ws in Hr by assumption.
  assert (Hlen : (S (length (p ++ mem_head m)) + length (m_mid2 m))%nat = length (pre ++ obj_pre w l1 m)).
  { unfold p, obj_pre, obj_kpre, obj_mid, mem_head. len. }
  rewrite Hlen in Hr.
  split; [exact Hj'|].
  apply open_cases in Ho. destruct Ho as [-> | ->]; [left|right]; (split; [reflexivity|]).
  - cbn [key_loop] in Hr.
    change (length (pre ++ obj_pre w l1 m) <? 0)%nat with false in Hr.
    change (91 =? 34) with false in Hr. change (91 =? 58) with false in Hr.
    rewrite andb_false_r in Hr. change (91 =? 91) with true in Hr. cbv iota in Hr.
    rewrite (nth_error_nth' path (S k) []) in Hr by lia. cbn [bind keyst] in Hr. exact Hr.
  - cbn [key_loop] in Hr.
    change (length (pre ++ obj_pre w l1 m) <? 0)%nat with false in Hr.
    change (123 =? 34) with false in Hr. change (123 =? 58) with false in Hr.
    rewrite andb_false_r in Hr. change (123 =? 91) with false in Hr.
    change (123 =? 123) with true in Hr. cbv iota in Hr.
    rewrite (nth_error_nth' path (S k) []) in Hr by lia. cbn [keyst offset brace] in Hr.
    do 4 eexists. split; [exact Hbr|]. exact Hr.
Qed.

(** The last path element. *)
Lemma AtO_last_arr json path r k pre w l1 e c rest :
  ws_ok w = true -> forallb elem_ok l1 = true -> ws_ok (e_pre e) = true -> is_ws c = false -> S k = length path ->
  atoi (nth k path []) = Some (Z.of_nat (length l1)) ->
  AtO json path r k pre 91 (w ++ jpre (map elem_text l1) ++ e_pre e ++ c :: rest) ->
  Found json r None (pre ++ arr_pre w l1 e).
Proof.
  intros Hw Hok He Hcw Hk Hx [Hj [[_ Hr]|[E _]]]; [|discriminate].
  rewrite OUT_arr in Hr; [|lia|reflexivity].
  unfold arr_step in Hr. cbn [cur offset keyst brace] in Hr. rewrite Hx in Hr.
  replace (S k =? length path)%nat with true in Hr by (symmetry; apply Nat.eqb_eq; lia).
  destruct l1 as [|x0 l1'] using rev_ind.
  - cbn [length Z.of_nat] in Hr. cbn [Z.eqb] in Hr.
    assert (Hs : skipn (S (length pre)) json = (w ++ e_pre e) ++ c :: rest).
    { rewrite Hj. replace (pre ++ 91 :: w ++ jpre (map elem_text []) ++ e_pre e ++ c :: rest)
        with ((pre ++ [91]) ++ (w ++ e_pre e) ++ c :: rest) by (cbn [map]; change (jpre []) with (@nil N); same_text).
      apply skipn_app_eq. rewrite length_snoc. reflexivity. }
    rewrite Hs in Hr. rewrite arr0_ws in Hr; [| |exact Hcw].
    + destruct (is_open c) eqn:Eo; cbn [bind] in Hr; rewrite OUT_end in Hr by lia.
      * do 3 eexists. exists (pre ++ arr_pre w [] e), []. split; [exact Hr|].
        split; [lia|]. split; [reflexivity|]. split; [|symmetry; apply app_nil_r].
        unfold arr_pre. cbn [map]. change (jpre []) with (@nil N). len.
      * do 3 eexists. exists (pre ++ [91]), (w ++ e_pre e). split; [exact Hr|].
        split; [lia|]. split; [rewrite ws_ok_app; apply andb_true_iff; split; assumption|].
        split; [rewrite length_snoc; reflexivity|].
        unfold arr_pre. cbn [map]. change (jpre []) with (@nil N). same_text.
    + rewrite ws_ok_app. apply andb_true_iff. split; assumption.
  - clear IHl1'.
    replace (Z.of_nat (length (l1' ++ [x0])) =? 0)%Z with false in Hr.
    2:{ symmetry. apply Z.eqb_neq. rewrite app_length. cbn [length]. lia. }
    rewrite Hj in Hr at 2. rewrite skipn_length_app in Hr. cbn [arr_loop] in Hr.
    change (91 =? 34) with false in Hr. change (91 =? 44) with false in Hr.
    rewrite andb_false_r in Hr. change (is_open 91) with true in Hr. cbv iota in Hr.
    set (T := Z.of_nat (length (l1' ++ [x0]))) in *.
    destruct (Skips_ws _ _ _ _ _ (arr_scan json true T 0) 0 w Hw (pre ++ [91])
                (jpre (map elem_text (l1' ++ [x0])) ++ e_pre e ++ c :: rest) 1%nat tt) as [Hn1 [[] E1]].
    { rewrite Hj. same_text. }
    { apply nobs_snoc. discriminate. }
    { lia. }
    rewrite length_snoc in E1. rewrite E1 in Hr. clear E1.
    unfold T in Hr. rewrite arr_found_at in Hr; [|assumption|assumption|assumption| |assumption].
    2:{ rewrite Hj. same_text. }
    cbn [bind] in Hr. rewrite OUT_end in Hr by lia.
    do 3 eexists. exists (((pre ++ [91]) ++ w) ++ jpre (map elem_text (l1' ++ [x0]))), (e_pre e).
    split; [exact Hr|]. split; [rewrite !app_length; cbn [length]; lia|].
    split; [assumption|]. split; [reflexivity|]. unfold arr_pre. same_text.
Qed.

Lemma AtO_last_obj json path r k pre w l1 m rest :
  ws_ok w = true -> forallb mem_ok l1 = true -> mem_ok m = true -> S k = length path ->
  nth k path [] = m_key m -> nokey (m_key m) l1 ->
  AtO json path r k pre 123 (obj_in w l1 m rest) ->
  Found json r (Some (length (pre ++ obj_kpre w l1 m))) (pre ++ obj_pre w l1 m).
Proof.
  intros Hw Hok Hm Hk Hx Hnk [Hj [[E _]|[_ (s & e & o & br & Hbr & Hr)]]]; [discriminate|].
  unshelve epose proof (key_found json path (pre ++ [123]) w l1 m (m_mid2 m ++ rest)
              k (CSt o br (nth k path []) None) s e _ _ _ _ _ _ _) as E1.
  { assumption. } { assumption. } { assumption. } { apply nobs_snoc. discriminate. }
  { rewrite Hj. unfold obj_in. same_text. } { assumption. } { assumption. }
  cbv zeta in E1. rewrite length_snoc in E1.
  replace (S k =? length path)%nat with true in E1 by (symmetry; apply Nat.eqb_eq; lia).
  unfold RK, obj_in in Hr. rewrite E1 in Hr. clear E1. cbn [bind brace cur] in Hr. rewrite OUT_end in Hr by lia.
  unfold mem_ok in Hm. nbool. unfold Found.
  replace (length (((pre ++ [123]) ++ w ++ jpre (map mem_text l1)) ++ m_pre m ++ [34]))
    with (length (pre ++ obj_kpre w l1 m)) in Hr by (unfold obj_kpre; f_equal; same_text).
  do 3 eexists. exists ((((pre ++ [123]) ++ w ++ jpre (map mem_text l1)) ++ mem_head m) ++ [58]), (m_mid2 m).
  split; [exact Hr|]. split; [lia|]. split; [assumption|].
  split; [rewrite length_snoc; reflexivity|].
  unfold obj_pre, obj_kpre, obj_mid, mem_head. same_text.
Qed.

Lemma focus_pre_open t p pre v post : focus t p pre v post -> p <> [] ->
  is_open (hd 0 (render t)) = true /\ pre = hd 0 (render t) :: tl pre.
Proof. intros H Hp. inversion H; subst; [congruence| |]; split; reflexivity. Qed.

(** Following a path to the first byte [c] of the value, whatever comes after. *)
Lemma AtO_descend t p pre v post : focus t p pre v post -> forall k P, wf t = true -> p <> [] ->
  exists ks, forall json path r rest,
  (k + length p)%nat = length path -> (forall j, (j < length p)%nat -> nth (k + j) path [] = nth j p []) ->
  json = P ++ pre ++ hd 0 (render v) :: rest ->
  AtO json path r k P (hd 0 (render t)) (tl pre ++ hd 0 (render v) :: rest) ->
  Found json r ks (P ++ pre).
Proof.
  induction 1 as [v|w l1 e l2 x p pre v post Hx Hf IH|w l1 m l2 p pre v post Hk Hf IH]; intros k P Hw Hp; [congruence| |].
  - rewrite wf_arr, forallb_app in Hw. cbn [forallb] in Hw. nbool.
    assert (Hoke := H1). unfold elem_ok in H1. nbool.
    change (hd 0 (render (JArr w (l1 ++ e :: l2)))) with 91.
    destruct p as [|y p].
    + inversion Hf; subst. exists None. intros json path r rest Hlen Hq Hj Hat.
      rewrite app_nil_r. cbn [length] in *.
      destruct (render_cons _ H4) as (c & rr & Er & Hc). rewrite Er in Hat. cbn [hd] in Hat.
      eapply AtO_last_arr with (k := k) (path := path) (c := c) (rest := rest); try assumption; try lia.
      * specialize (Hq 0%nat ltac:(lia)). rewrite Nat.add_0_r in Hq. rewrite Hq. exact Hx.
      * unfold arr_pre in Hat. cbn [tl app] in Hat. rewrite app_nil_r in Hat. lassoc. lassoc.
        rewrite <- !app_assoc in Hat. exact Hat.
    + destruct (IH (S k) (P ++ arr_pre w l1 e) H4 ltac:(discriminate)) as (ks & IHks). exists ks.
      destruct (focus_pre_open _ _ _ _ _ Hf ltac:(discriminate)) as [Ho Epre].
      intros json path r rest Hlen Hq Hj Hat. rewrite app_assoc. apply IHks with (path := path) (rest := rest).
      * cbn [length] in *. lia.
      * intros j Hjj. specialize (Hq (S j) ltac:(cbn [length] in *; lia)). transitivity (nth (k + S j) path []); [f_equal; lia|exact Hq].
      * rewrite Hj. same_text.
      * apply AtO_arr_step; try assumption.
        -- cbn [length] in *. lia.
        -- specialize (Hq 0%nat ltac:(cbn [length]; lia)). rewrite Nat.add_0_r in Hq. rewrite Hq. exact Hx.
        -- unfold arr_pre in Hat. cbn [tl app] in Hat. rewrite Epre in Hat.
           cbn [app] in Hat. rewrite <- !app_assoc in Hat. exact Hat.
  - rewrite wf_obj, forallb_app in Hw. cbn [forallb] in Hw. nbool.
    assert (Hokm := H1). unfold mem_ok in H1. nbool.
    change (hd 0 (render (JObj w (l1 ++ m :: l2)))) with 123.
    assert (Hin : forall z, tl (obj_pre w l1 m ++ pre) ++ z = obj_in w l1 m (pre ++ z)).
    { intro z. unfold obj_in, obj_pre, obj_kpre, obj_mid, mem_head. cbn [app tl]. same_text. }
    destruct p as [|y p].
    + inversion Hf; subst. eexists. intros json path r rest Hlen Hq Hj Hat.
      rewrite app_nil_r. cbn [length] in *. rewrite Hin in Hat. cbn [app] in Hat.
      eapply AtO_last_obj with (k := k) (path := path); try eassumption; try lia.
      specialize (Hq 0%nat ltac:(lia)). rewrite Nat.add_0_r in Hq. exact Hq.
    + assert (Hwm : wf (m_val m) = true) by assumption.
      destruct (IH (S k) (P ++ obj_pre w l1 m) Hwm ltac:(discriminate)) as (ks & IHks). exists ks.
      destruct (focus_pre_open _ _ _ _ _ Hf ltac:(discriminate)) as [Ho Epre].
      intros json path r rest Hlen Hq Hj Hat. rewrite app_assoc. apply IHks with (path := path) (rest := rest).
      * cbn [length] in *. lia.
      * intros j Hjj. specialize (Hq (S j) ltac:(cbn [length] in *; lia)). transitivity (nth (k + S j) path []); [f_equal; lia|exact Hq].
      * rewrite Hj. same_text.
      * apply AtO_obj_step; try assumption.
        -- cbn [length] in *. lia.
        -- specialize (Hq 0%nat ltac:(cbn [length]; lia)). rewrite Nat.add_0_r in Hq. exact Hq.
        -- rewrite Hin in Hat. rewrite Epre in Hat. cbn [app] in Hat. exact Hat.
Qed.

Lemma delimited_terminated rest : delimited rest = true -> terminated rest.
Proof.
  destruct rest as [|c r]; [discriminate|]. cbn. intro H. exists c, r. split; [reflexivity|].
  rewrite <- is_ws_space. exact H.
Qed.

Lemma terminated_delimited rest : terminated rest -> delimited rest = true.
Proof. intros (c & r & -> & H). cbn. rewrite is_ws_space. exact H. Qed.

Lemma value_end_over json ks pre v post :
  wf v = true -> json = pre ++ render v ++ post -> over v post ->
  value_end json ks (length pre) =
  Ok (ks, (length pre + qoff v)%nat, (length pre + qoff v + length (bare v))%nat).
Proof.
  intros Hw Hj Ho. destruct v as [s|s|w els|w ms].
  - apply value_end_spec with (post := post); try assumption. apply delimited_terminated. exact Ho.
  - unfold value_end.
    rewrite (at_app_eq json pre 34 (s ++ 34 :: post)); [|rewrite Hj; cbn [render]; same_text|reflexivity].
    cbn [bind]. change (is_open 34) with false. change (34 =? 34) with true. cbv iota.
    assert (Hs2 : skipn (S (length pre)) json = s ++ 34 :: post).
    { rewrite Hj. cbn [render]. replace (pre ++ (34 :: s ++ [34]) ++ post) with ((pre ++ [34]) ++ s ++ 34 :: post) by same_text.
      apply skipn_app_eq. rewrite length_snoc. reflexivity. }
    rewrite Hs2. rewrite (quote_value (pre ++ [34]) s post _ Hw) by (rewrite length_snoc; reflexivity).
    cbn [qoff bare]. do 2 f_equal; [f_equal; lia|len].
  - unfold value_end.
    rewrite (at_app_eq json pre 91 (tl (render (JArr w els)) ++ post)); [|rewrite Hj, render_arr; cbn [tl]; same_text|reflexivity].
    cbn [bind]. change (is_open 91) with true. cbv iota.
    replace (skipn (length pre) json) with (render (JArr w els) ++ post) by (rewrite Hj; symmetry; apply skipn_length_app).
    rewrite (close_value json pre _ post Hw eq_refl Hj). cbn [qoff bare]. do 2 f_equal; [f_equal; lia|len].
  - unfold value_end.
    rewrite (at_app_eq json pre 123 (tl (render (JObj w ms)) ++ post)); [|rewrite Hj, render_obj; cbn [tl]; same_text|reflexivity].
    cbn [bind]. change (is_open 123) with true. cbv iota.
    replace (skipn (length pre) json) with (render (JObj w ms) ++ post) by (rewrite Hj; symmetry; apply skipn_length_app).
    rewrite (close_value json pre _ post Hw eq_refl Hj). cbn [qoff bare]. do 2 f_equal; [f_equal; lia|len].
Qed.

(** [core] on any continuation.  Only the first byte of the value matters for its start. *)
Theorem core_cut d p pre v post :
  wf_doc d = true -> p <> [] -> focus (d_val d) p pre v post ->
  exists ks,
  (forall rest, core (d_pre d ++ pre ++ hd 0 (render v) :: rest) true p = Ok (ks, length (d_pre d ++ pre), O)) /\
  (forall rest, core (d_pre d ++ pre ++ hd 0 (render v) :: rest) false p =
     value_end (d_pre d ++ pre ++ hd 0 (render v) :: rest) ks (length (d_pre d ++ pre))).
Proof.
  intros Hwd Hp Hf. assert (Hw : wf (d_val d) = true) by (unfold wf_doc in Hwd; nbool; assumption).
  assert (Hwp : ws_ok (d_pre d) = true) by (unfold wf_doc in Hwd; nbool; assumption).
  assert (Hwv : wf v = true) by (eapply focus_wf; eassumption).
  destruct (AtO_descend _ _ _ _ _ Hf 0 (d_pre d) Hw Hp) as (ks & Hd).
  destruct (focus_pre_open _ _ _ _ _ Hf Hp) as [Ho Epre].
  set (op := hd 0 (render (d_val d))) in *.
  destruct (render_cons v Hwv) as (c & rr & Er & Hc). rewrite Er in Hd. cbn [hd] in Hd.
  assert (Hopw : is_ws op = false) by (apply open_cases in Ho; destruct Ho as [-> | ->]; reflexivity).
  assert (Hcore : forall (rest : bytes) (js : bool), let json := d_pre d ++ pre ++ c :: rest in exists r,
    Found json r ks (d_pre d ++ pre) /\
    core json js p = bind r (fun st => if (offset st =? 0)%nat then Err (EBadJSON 0)
             else bind (skip_space (skipn (offset st) json) (offset st))
                  (fun off' => if js then Ok (keyst st, off', O) else value_end json (keyst st) off'))).
  { intros rest js json. destruct p as [|p0 path]; [congruence|].
    exists (OUT json (p0 :: path) 0 (CSt (length (d_pre d)) op (nth 0 (p0 :: path) []) None)). split.
    - apply Hd with (path := p0 :: path) (rest := rest); [reflexivity|intros; reflexivity|reflexivity|].
      apply AtO_enter; [cbn [length]; lia|exact Ho|].
      unfold json. rewrite Epre at 1. same_text.
    - unfold core. replace (length json <? 2)%nat with false.
      2:{ symmetry. apply Nat.ltb_ge. unfold json. rewrite Epre. len. }
      assert (Ej : json = d_pre d ++ op :: tl pre ++ c :: rest) by (unfold json; rewrite Epre at 1; same_text).
      rewrite Ej at 1. rewrite skip_space_ws by assumption. cbn [bind Nat.add].
      rewrite Ej at 1. rewrite at_app. cbn [bind]. reflexivity. }
  assert (Hstart : forall (rest : bytes) (js : bool) (r : res cst), let json := d_pre d ++ pre ++ c :: rest in
    Found json r ks (d_pre d ++ pre) ->
    bind r (fun st => if (offset st =? 0)%nat then Err (EBadJSON 0)
             else bind (skip_space (skipn (offset st) json) (offset st))
                  (fun off' => if js then Ok (keyst st, off', O) else value_end json (keyst st) off')) =
    if js then Ok (ks, length (d_pre d ++ pre), O) else value_end json ks (length (d_pre d ++ pre))).
  { intros rest js r json (off & br & x & p0 & w0 & -> & Hoff & Hw0 & Hl & E). cbn [bind offset keyst].
    replace (off =? 0)%nat with false by (symmetry; apply Nat.eqb_neq; lia).
    assert (Hs : skipn off json = w0 ++ c :: rest).
    { unfold json. rewrite app_assoc, E, <- app_assoc. rewrite skipn_app_eq by exact Hl. reflexivity. }
    rewrite Hs, skip_space_ws by assumption. cbn [bind].
    replace (off + length w0)%nat with (length (p0 ++ w0)) by (rewrite app_length, Hl; reflexivity).
    rewrite E. reflexivity. }
  exists ks. split.
  - intro rest. rewrite Er. cbn [hd]. destruct (Hcore rest true) as (r & Hfd & ->). apply (Hstart rest true r Hfd).
  - intro rest. rewrite Er. cbn [hd]. destruct (Hcore rest false) as (r & Hfd & ->). apply (Hstart rest false r Hfd).
Qed.

(** ** The end of a value cannot be found before it is there *)
Lemma qscan_agree a x y i : (i <= length a)%nat -> qscan (a ++ x) i = qscan (a ++ y) i.
Proof. intro H. unfold qscan. rewrite !firstn_app. replace (i - length a)%nat with O by lia. reflexivity. Qed.

Lemma close_loop_more a x y : forall r i level inq e, (i + length r <= length a)%nat ->
  close_loop (a ++ x) r i level inq = Some e -> forall r', close_loop (a ++ y) (r ++ r') i level inq = Some e.
Proof.
  induction r as [|c r IH]; intros i level inq e Hi E r'; [discriminate|]. cbn [app close_loop length] in *.
  unfold toggle in *. rewrite (qscan_agree a y x) by lia.
  destruct (c =? 34); [apply IH; [lia|exact E]|]. destruct inq; [apply IH; [lia|exact E]|].
  destruct (is_open c); [apply IH; [lia|exact E]|]. destruct (is_close c); [|apply IH; [lia|exact E]].
  destruct (level =? 1)%nat; [exact E|apply IH; [lia|exact E]].
Qed.

Lemma close_loop_bound json : forall r i level inq e, close_loop json r i level inq = Some e -> (e <= i + length r)%nat.
Proof.
  induction r as [|c r IH]; intros i level inq e E; [discriminate|]. cbn [close_loop length] in *.
  destruct (c =? 34); [apply IH in E; lia|]. destruct inq; [apply IH in E; lia|].
  destruct (is_open c); [apply IH in E; lia|]. destruct (is_close c); [|apply IH in E; lia].
  destruct (level =? 1)%nat; [injection E as <-; lia|apply IH in E; lia].
Qed.

Lemma quote_loop_more : forall n r i e, (length r <= n)%nat -> quote_loop r i = Some e ->
  (e < i + length r)%nat /\ forall r', quote_loop (r ++ r') i = Some e.
Proof.
  induction n as [|n IH]; intros [|c r] i e Hn E; cbn [length] in Hn; try lia; try discriminate.
  cbn [app quote_loop length] in *. destruct (c =? 92).
  - destruct r as [|d r]; [discriminate|]. cbn [app length] in *.
    destruct (IH r (S (S i)) e ltac:(lia) E) as [H1 H2]. split; [lia|exact H2].
  - destruct (c =? 34).
    + injection E as <-. split; [lia|reflexivity].
    + destruct (IH r (S i) e ltac:(lia) E) as [H1 H2]. split; [lia|exact H2].
Qed.

Lemma close_loop_broken pre v q q' : wf v = true -> container v = true -> render v = q ++ q' -> q' <> [] ->
  close_loop (pre ++ q) q (length pre) 0 false = None.
Proof.
  intros Hw Hc Er Hq'. destruct (close_loop (pre ++ q) q (length pre) 0 false) as [e|] eqn:E; [|reflexivity].
  exfalso. pose proof (close_loop_bound _ _ _ _ _ _ E) as Hb.
  rewrite <- (app_nil_r (pre ++ q)) in E.
  assert (Hl : (length pre + length q <= length (pre ++ q))%nat) by (rewrite app_length; lia).
  pose proof (close_loop_more (pre ++ q) [] q' q (length pre) O false e Hl E q') as E2.
  pose proof (close_value (pre ++ render v) pre v [] Hw Hc ltac:(rewrite app_nil_r; reflexivity)) as E3.
  rewrite app_nil_r in E3. rewrite Er in E3. rewrite <- app_assoc in E2. rewrite E3 in E2. injection E2 as <-.
  rewrite !app_length in Hb. destruct q'; [congruence|]. cbn [length] in Hb. lia.
Qed.

(** Where the text breaks off inside the value (or, for a token, with the value): no end. *)
Lemma value_end_broken ks pre v q q' :
  wf v = true -> render v = q ++ q' -> q <> [] -> (q' = [] -> exists s, v = JScalar s) ->
  value_end (pre ++ q) ks (length pre) = Err (EBadJSON (length pre)).
Proof.
  intros Hw Er Hq Hq'. unfold value_end. destruct (render_cons v Hw) as (c & r & Ec & Hc).
  destruct q as [|c0 q]; [congruence|]. rewrite Ec in Er. cbn [app] in Er. injection Er as -> Er.
  rewrite (at_app_eq (pre ++ c0 :: q) pre c0 q) by reflexivity. cbn [bind].
  assert (Hs : skipn (length pre) (pre ++ c0 :: q) = c0 :: q) by apply skipn_length_app.
  destruct v as [s|s|w els|w ms].
  - cbn [render] in Ec. apply scalar_ok_inv in Hw. destruct Hw as [_ Hw].
    assert (Htc : is_token_char c0 = true) by (subst s; inversion Hw; assumption).
    apply token_plain in Htc. destruct Htc as (Hp & _ & _).
    rewrite (plain_not_open _ Hp). apply plain_neq in Hp. rewrite eqb_false by tauto. rewrite Hs.
    replace (token_loop (c0 :: q) (length pre)) with (@None nat); [reflexivity|].
    assert (HF : Forall (fun c => is_token_char c = true) (c0 :: q)).
    { rewrite Ec in Hw. subst r. change (c0 :: q ++ q') with ((c0 :: q) ++ q') in Hw. apply Forall_app in Hw. tauto. }
    clear - HF. generalize (length pre) as i. induction HF as [|c s Hc Hs IH]; intro i; [reflexivity|].
    cbn [token_loop]. apply token_plain in Hc. destruct Hc as (Hp & _ & Hws). apply plain_neq in Hp.
    rewrite <- is_ws_space, Hws, !eqb_false by tauto. apply IH.
  - cbn [render] in Ec. injection Ec as <- <-.
    change (is_open 34) with false. change (34 =? 34) with true. cbv iota.
    replace (skipn (S (length pre)) (pre ++ 34 :: q)) with q.
    2:{ symmetry. rewrite app_cons_assoc. apply skipn_app_eq. rewrite length_snoc. reflexivity. }
    destruct (quote_loop q (S (length pre))) as [e|] eqn:E; [|reflexivity]. exfalso.
    destruct (quote_loop_more (length q) q _ e ltac:(lia) E) as [H1 H2]. specialize (H2 q'). rewrite <- Er in H2.
    rewrite (quote_value (pre ++ [34]) s []) in H2; [|exact Hw|len].
    injection H2 as <-. apply (f_equal (@length N)) in Er. rewrite !app_length in *. cbn [length] in *.
    destruct q' as [|? q']; [destruct (Hq' eq_refl) as [? ?]; discriminate|]. cbn [length] in *. lia.
  - rewrite render_arr in Ec. injection Ec as <- Ec. change (is_open 91) with true. cbv iota. rewrite Hs.
    rewrite (close_loop_broken pre (JArr w els) (91 :: q) q'); [reflexivity|exact Hw|reflexivity| |].
    + rewrite render_arr. cbn [app]. rewrite Ec. f_equal. exact Er.
    + intros ->. destruct (Hq' eq_refl) as [? ?]; discriminate.
  - rewrite render_obj in Ec. injection Ec as <- Ec. change (is_open 123) with true. cbv iota. rewrite Hs.
    rewrite (close_loop_broken pre (JObj w ms) (123 :: q) q'); [reflexivity|exact Hw|reflexivity| |].
    + rewrite render_obj. cbn [app]. rewrite Ec. f_equal. exact Er.
    + intros ->. destruct (Hq' eq_refl) as [? ?]; discriminate.
Qed.
