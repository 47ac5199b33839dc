(** Type tests, Length, IsEmpty and GetMap against the trees. *)
From Coq Require Import String.
From Verif Require Import GoStd Json SpecIter SpecList Core Skip Focus CoreProofs Errors Api ApiProofs Iter IterProofs IterObj.

Local Open Scope N_scope.

(** ** Type tests *)
Lemma render_first v c r : wf v = true -> render v = c :: r ->
  (c =? 91) = is_arr v /\ (c =? 123) = is_obj v /\ (c =? 34) = is_str v.
Proof.
  intros Hv E. destruct v as [s|s|w els|w ms]; cbn [render wf] in *; try (injection E as <- _; repeat split; reflexivity).
  subst s. apply scalar_ok_inv in Hv. destruct Hv as [_ Hv]. inversion Hv; subst. apply token_plain in H1.
  destruct H1 as [H1 _]. apply plain_neq in H1. rewrite !eqb_false by tauto. repeat split; reflexivity.
Qed.

Lemma text_nonnil d : wf_doc d = true -> exists c r, text d = c :: r.
Proof.
  intro Hw. apply wf_doc_inv in Hw. destruct Hw as (_ & H & _). destruct (render_cons _ H) as (c & r & E & _).
  unfold text. rewrite E. destruct (d_pre d); cbn; eauto.
Qed.

Lemma type_control d p v control eq :
  wf_doc d = true -> lookup (d_val d) p = Some v ->
  exists n c r, render v = c :: r /\ at_ (text d) n = Ok c /\
  typeControlCore (text d) control eq p =
    Ok (if match control with [] => existsb (N.eqb 0) [] | _ => existsb (N.eqb c) control end then eq else negb eq, n).
Proof.
  intros Hw Hl. destruct (lookup_focus _ _ _ Hl) as (pre & post & Hf).
  assert (Hv : wf v = true) by (eapply focus_wf; [exact Hf|apply wf_doc_inv in Hw; tauto]).
  destruct (render_cons v Hv) as (c & r & E & _).
  exists (length (d_pre d ++ pre)), c, r. split; [exact E|].
  pose proof (at_start _ _ _ _ _ _ _ Hf E) as Ha. split; [exact Ha|].
  unfold typeControlCore. destruct (text_nonnil d Hw) as (c0 & r0 & Et).
  pose proof (start_of_present _ _ _ _ _ Hw Hf) as Hs. rewrite Et in *. rewrite Hs. cbn [bind].
  destruct control as [|x xs]; [reflexivity|]. rewrite Ha. cbn [bind].
  destruct (existsb (N.eqb c) (x :: xs)); reflexivity.
Qed.

Lemma is_array d p v : wf_doc d = true -> lookup (d_val d) p = Some v -> IsArray (text d) p = Ok (is_arr v).
Proof.
  intros Hw Hl. destruct (lookup_focus _ _ _ Hl) as (pre & post & Hf).
  assert (Hv : wf v = true) by (eapply focus_wf; [exact Hf|apply wf_doc_inv in Hw; tauto]).
  destruct (type_control d p v [91] true Hw Hl) as (n & c & r & E & _ & HT).
  destruct (render_first v c r Hv E) as (E1 & E2 & E3).
  unfold IsArray. rewrite HT. cbn [bind existsb orb]. rewrite E1. destruct (is_arr v); reflexivity.
Qed.

Lemma container_first v c r : wf v = true -> render v = c :: r -> ((c =? 91) || ((c =? 123) || false)) = container v.
Proof.
  intros Hv E. destruct (render_first v c r Hv E) as (E1 & E2 & E3). rewrite E1, E2.
  destruct v; reflexivity.
Qed.

Lemma is_object d p v : wf_doc d = true -> lookup (d_val d) p = Some v -> IsObject (text d) p = Ok (container v).
Proof.
  intros Hw Hl. destruct (lookup_focus _ _ _ Hl) as (pre & post & Hf).
  assert (Hv : wf v = true) by (eapply focus_wf; [exact Hf|apply wf_doc_inv in Hw; tauto]).
  destruct (type_control d p v [91; 123] true Hw Hl) as (n & c & r & E & _ & HT).
  unfold IsObject. rewrite HT. cbn [bind existsb]. rewrite (container_first v c r Hv E). destruct (container v); reflexivity.
Qed.

Lemma is_value d p v : wf_doc d = true -> lookup (d_val d) p = Some v -> IsValue (text d) p = Ok (negb (container v)).
Proof.
  intros Hw Hl. destruct (lookup_focus _ _ _ Hl) as (pre & post & Hf).
  assert (Hv : wf v = true) by (eapply focus_wf; [exact Hf|apply wf_doc_inv in Hw; tauto]).
  destruct (type_control d p v [91; 123] false Hw Hl) as (n & c & r & E & _ & HT).
  unfold IsValue. rewrite HT. cbn [bind existsb]. rewrite (container_first v c r Hv E). destruct (container v); reflexivity.
Qed.

(** Type of a number or literal token, [pf] telling the numbers. *)
Definition token_type (pf : bytes -> bool) (s : bytes) : jtype :=
  if bytes_eqb s (b "true") || bytes_eqb s (b "false") then TBoolean
  else if bytes_eqb s (b "null") then TNull
  else match atoi s with Some _ => TNumber | None => if pf s then TNumber else TString end.

Lemma get_type pf d p v : wf_doc d = true -> lookup (d_val d) p = Some v ->
  p <> [] \/ is_str v = true \/ container v = true \/ (d_pre d = [] /\ d_post d = []) ->
  GetType pf (text d) p =
  Ok (match v with
      | JArr _ _ => TArray | JObj _ _ => TObject | JString _ => TString
      | JScalar s => token_type pf s
      end).
Proof.
  intros Hw Hl Hor. destruct (lookup_focus _ _ _ Hl) as (pre & post & Hf).
  assert (Hv : wf v = true) by (eapply focus_wf; [exact Hf|apply wf_doc_inv in Hw; tauto]).
  destruct (type_control d p v [] false Hw Hl) as (n & c & r & E & Ha & HT).
  destruct (render_first v c r Hv E) as (E1 & E2 & E3).
  unfold GetType. rewrite HT. cbn [bind existsb]. rewrite Ha. cbn [bind]. rewrite E1, E2, E3.
  destruct v as [s|s|w els|w ms]; cbn [is_arr is_obj is_str]; try reflexivity.
  assert (Hg : GetString (text d) p = Ok s).
  { destruct p as [|x p].
    - destruct Hor as [Hor|[Hor|[Hor|[Hor1 Hor2]]]]; try discriminate; [contradiction|].
      cbn in Hl. injection Hl as Hl. unfold GetString, Get, text. rewrite Hor1, Hor2, Hl. cbn. rewrite app_nil_r. reflexivity.
    - exact (get_present d (x :: p) (JScalar s) Hw ltac:(discriminate) Hl). }
  rewrite Hg. cbn [bind]. unfold token_type, atoi. destruct (bytes_eqb s (b "true") || bytes_eqb s (b "false")); [reflexivity|].
  destruct (bytes_eqb s (b "null")); [reflexivity|]. destruct (parse_int 64 s); [reflexivity|]. destruct (pf s); reflexivity.
Qed.

(** ** Length *)
Lemma qscan_firstn json n i : (i <= n)%nat -> qscan (firstn n json) i = qscan json i.
Proof. intro H. unfold qscan. rewrite firstn_firstn. rewrite Nat.min_l by exact H. reflexivity. Qed.

Lemma length_loop_ext json rest : forall n i l q, (i + length rest <= n)%nat ->
  length_loop (firstn n json) rest i l q = length_loop json rest i l q.
Proof.
  induction rest as [|c r IH]; intros n i l q Hn; [reflexivity|]. cbn [length] in Hn. cbn [length_loop].
  unfold toggle. rewrite qscan_firstn by lia.
  destruct (c =? 34); [apply IH; lia|]. destruct q; [apply IH; lia|].
  destruct (is_open c); [apply IH; lia|]. destruct (is_close c); [apply IH; lia|].
  destruct ((c =? 44) && (l =? 1)%Z); [f_equal|]; apply IH; lia.
Qed.

Lemma length_scan json :
  scanner json nat unit (fun r i q l _ => length_loop json r i (Z.of_nat l) q) 1.
Proof.
  constructor; intros.
  - cbn [length_loop]. skip_plain H0.
  - cbn [length_loop]. rewrite (eqb_false c 34) by assumption. reflexivity.
  - cbn [length_loop]. unfold toggle. rewrite H1. reflexivity.
  - exists tt. cbn [length_loop]. unfold toggle. rewrite H1. reflexivity.
  - exists tt. cbn [length_loop]. unfold toggle. rewrite H1. reflexivity.
  - exists tt. apply open_cases in H0. rewrite Nat2Z.inj_succ, <- Z.add_1_r. destruct H0; subst c; reflexivity.
  - exists tt. apply close_cases in H0. replace (Z.of_nat l) with (Z.of_nat (S l) - 1)%Z by lia.
    destruct H0; subst c; reflexivity.
  - exists tt. assert (E : (Z.of_nat l =? 1)%Z = false) by (apply Z.eqb_neq; lia).
    destruct H0; subst c; cbn -[Z.eqb Z.of_nat]; rewrite ?E; reflexivity.
Qed.

(** At depth 1 the count is not affected by [s]. *)
Definition uncounted (json s : bytes) : Prop := forall pre post,
  json = pre ++ s ++ post -> nobs pre -> nobs (pre ++ s) /\
  length_loop json (s ++ post) (length pre) 1 false = length_loop json post (length (pre ++ s)) 1 false.

Lemma uncounted_elem json e : elem_ok e = true -> uncounted json (elem_text e).
Proof.
  intros He pre post Hj Hn.
  destruct (Skips_elem json _ _ _ _ (length_scan json) 0 e He pre post 1%nat tt Hj Hn ltac:(lia)) as [Hn2 [e' E]].
  split; [exact Hn2|exact E].
Qed.

Lemma uncounted_mem json m : mem_ok m = true -> uncounted json (mem_text m).
Proof.
  intros Hm pre post Hj Hn. rewrite mem_text_split in *. rewrite <- app_assoc in *. cbn [app] in *.
  destruct (Skips_head _ _ _ _ _ (length_scan json) 0 m Hm pre (58 :: mem_tail m ++ post) 1%nat tt Hj Hn ltac:(lia)) as [Hn1 [e1 E1]].
  destruct (Skips_tail _ _ _ _ _ (length_scan json) 0 m Hm ((pre ++ mem_head m) ++ [58]) post 1%nat tt
    ltac:(rewrite Hj; same_text) ltac:(apply nobs_snoc; discriminate) ltac:(lia)) as [Hn2 [e2 E2]].
  split.
  - replace (pre ++ mem_head m ++ 58 :: mem_tail m) with (((pre ++ mem_head m) ++ [58]) ++ mem_tail m) by same_text.
    exact Hn2.
  - change 1%Z with (Z.of_nat 1). rewrite E1. cbn [length_loop].
    change (58 =? 34) with false. change (is_open 58) with false. change (is_close 58) with false.
    change (58 =? 44) with false. cbv beta iota. cbn [andb].
    rewrite length_snoc in E2. rewrite E2. f_equal. len.
Qed.

Lemma count_join json xs : forall pre post,
  Forall (uncounted json) xs -> nobs pre -> json = pre ++ join xs ++ post ->
  length_loop json (join xs ++ post) (length pre) 1 false =
  (pred (length xs) + length_loop json post (length (pre ++ join xs)) 1 false)%nat.
Proof.
  induction xs as [|x l IH]; intros pre post HF Hn Hj; [rewrite app_nil_r; reflexivity|].
  inversion HF as [|? ? Hx Hl]; subst x0 l0. rewrite join_cons in *. rewrite <- app_assoc in *.
  destruct (Hx pre (jpost l ++ post) Hj Hn) as [Hn1 E]. rewrite E. clear E.
  destruct l as [|y l].
  - cbn [jpost map concat app length pred Nat.add]. rewrite app_nil_r. reflexivity.
  - rewrite jpost_cons in *. cbn [app length_loop].
    change (44 =? 34) with false. change (is_open 44) with false. change (is_close 44) with false.
    change (44 =? 44) with true. cbn [andb Z.eqb Pos.eqb].
    specialize (IH ((pre ++ x) ++ [44]) post Hl ltac:(apply nobs_snoc; discriminate)).
    rewrite join_cons, length_snoc in IH. rewrite IH.
    + cbn [length pred Nat.add]. do 2 f_equal. f_equal. len.
    + rewrite Hj. same_text.
Qed.

(** Items of a container as texts. *)
Definition parts (v : jv) : list bytes :=
  match v with JArr _ els => map elem_text els | JObj _ ms => map mem_text ms | _ => [] end.
Definition inner_ws (v : jv) : bytes := match v with JArr w _ | JObj w _ => w | _ => [] end.
Definition opening (v : jv) : N := match v with JArr _ _ => 91 | _ => 123 end.
Lemma render_parts v : container v = true -> render v = opening v :: inner_ws v ++ join (parts v) ++ [closing v].
Proof. destruct v; try discriminate; reflexivity. Qed.

Lemma size_parts v : length (parts v) = size v.
Proof. destruct v; cbn; try reflexivity; apply map_length. Qed.

Lemma parts_uncounted json v : wf v = true -> Forall (uncounted json) (parts v).
Proof.
  destruct v as [s|s|w els|w ms]; cbn [parts]; intro H; try constructor.
  - rewrite wf_arr in H. nbool. apply Forall_map. apply Forall_forall. intros e He.
    rewrite forallb_forall in H0. apply uncounted_elem. apply H0. exact He.
  - rewrite wf_obj in H. nbool. apply Forall_map. apply Forall_forall. intros e He.
    rewrite forallb_forall in H0. apply uncounted_mem. apply H0. exact He.
Qed.

Lemma inner_ws_ok v : wf v = true -> ws_ok (inner_ws v) = true.
Proof.
  destruct v as [s|s|w els|w ms]; cbn [inner_ws]; intro H; try reflexivity;
  rewrite ?wf_arr, ?wf_obj in H; nbool; assumption.
Qed.

(** The count over the value up to (excluding or including) its last byte. *)
Lemma count_value json pre v tl post :
  wf v = true -> container v = true -> json = pre ++ render v ++ post -> (tl = [] \/ tl = [closing v]) ->
  length_loop json (opening v :: inner_ws v ++ join (parts v) ++ tl) (length pre) 0 false = pred (size v).
Proof.
  intros Hv Hc Hj Htl. rewrite (render_parts v Hc) in Hj.
  set (body := opening v :: inner_ws v ++ join (parts v) ++ tl) in *.
  assert (Hj' : firstn (length pre + length body) json = pre ++ body).
  { rewrite Hj. subst body. destruct Htl as [->| ->].
    - rewrite app_nil_r. replace (pre ++ (opening v :: inner_ws v ++ join (parts v) ++ [closing v]) ++ post)
        with ((pre ++ opening v :: inner_ws v ++ join (parts v)) ++ closing v :: post) by same_text.
      apply firstn_app_eq. len.
    - replace (pre ++ (opening v :: inner_ws v ++ join (parts v) ++ [closing v]) ++ post)
        with ((pre ++ opening v :: inner_ws v ++ join (parts v) ++ [closing v]) ++ post) by same_text.
      apply firstn_app_eq. len. }
  rewrite <- (length_loop_ext json body (length pre + length body)) by lia.
  rewrite Hj'. set (j := pre ++ body). subst body. cbn [length_loop].
  assert (Ho : is_open (opening v) = true /\ (opening v =? 34) = false) by (destruct v; split; reflexivity).
  destruct Ho as [Ho Ho']. rewrite Ho, Ho'. cbn [Z.add].
  assert (Hnb : nobs (pre ++ [opening v])) by (apply nobs_snoc; destruct v; discriminate).
  destruct (Skips_ws j _ _ _ _ (length_scan j) 0 (inner_ws v) (inner_ws_ok v Hv) (pre ++ [opening v])
     (join (parts v) ++ tl) 1%nat tt ltac:(subst j; same_text) Hnb ltac:(lia)) as [Hn1 [e1 E1]].
  rewrite length_snoc in E1. change (Z.of_nat 1) with 1%Z in E1. rewrite E1.
  rewrite count_join; [|apply parts_uncounted; exact Hv|exact Hn1|subst j; same_text].
  rewrite size_parts. destruct Htl as [-> | ->]; [cbn; lia|].
  assert (Hcl : is_close (closing v) = true /\ is_open (closing v) = false /\ (closing v =? 34) = false) by (destruct v; repeat split; reflexivity).
  destruct Hcl as (Hc1 & Hc2 & Hc3). cbn [length_loop]. rewrite Hc1, Hc2, Hc3. lia.
Qed.

(** ** Blank interiors *)
Lemma forallb_space w : forallb space w = ws_ok w.
Proof. reflexivity. Qed.

Lemma join_first_nonblank v : wf v = true -> size v <> O ->
  exists u c r, inner_ws v ++ join (parts v) = u ++ c :: r /\ is_ws c = false /\
    (r <> [] \/ exists w e, v = JArr w [e] /\ e_post e = [] /\ length (render (e_val e)) = 1%nat).
Proof.
  destruct v as [s|s|w els|w ms]; cbn [size]; intros Hv Hs; try contradiction.
  - destruct els as [|e l]; [contradiction|]. rewrite wf_arr in Hv. cbn [forallb] in Hv. nbool. unfold elem_ok in H0. nbool.
    destruct (render_cons _ H3) as (c & r & E & Hc).
    cbn [parts map inner_ws]. rewrite join_cons. unfold elem_text at 1. rewrite E.
    exists (w ++ e_pre e), c, (r ++ e_post e ++ jpost (map elem_text l)). split; [same_text|]. split; [exact Hc|].
    destruct r; [|left; discriminate]. destruct (e_post e) as [|] eqn:Ep; [|left; discriminate].
    destruct l; [|left; discriminate]. right. exists w, e. rewrite E. auto.
  - destruct ms as [|m l]; [contradiction|].
    cbn [parts map inner_ws]. rewrite join_cons. unfold mem_text at 1.
    exists (w ++ m_pre m), 34, (m_key m ++ 34 :: m_mid m ++ 58 :: m_mid2 m ++ render (m_val m) ++ m_post m ++ jpost (map mem_text l)).
    split; [same_text|]. split; [reflexivity|]. left. destruct (m_key m); discriminate.
Qed.

Lemma ws_ok_cons_false u c r : is_ws c = false -> ws_ok (u ++ c :: r) = false.
Proof. intro H. rewrite ws_ok_app. cbn. rewrite H. apply andb_false_r. Qed.

Lemma blank_inner v : wf v = true -> container v = true ->
  ws_ok (inner_ws v ++ join (parts v)) = (size v =? 0)%nat.
Proof.
  intros Hv Hc. destruct (Nat.eqb_spec (size v) 0) as [E|E].
  - replace (parts v) with (@nil bytes).
    + cbn. rewrite app_nil_r. apply inner_ws_ok. exact Hv.
    + destruct v as [s|s|w els|w ms]; try reflexivity; [destruct els|destruct ms]; try reflexivity; discriminate.
  - destruct (join_first_nonblank v Hv E) as (u & c & r & Eq & Hcc & _). rewrite Eq. apply ws_ok_cons_false. exact Hcc.
Qed.

Lemma firstn_removelast {A} (l : list A) : firstn (pred (length l)) l = removelast l.
Proof. symmetry. apply removelast_firstn_len. Qed.

Lemma blank_inner_short v : wf v = true -> container v = true ->
  ws_ok (removelast (inner_ws v ++ join (parts v))) = (size v =? 0)%nat || lone v.
Proof.
  intros Hv Hc. destruct (Nat.eqb_spec (size v) 0) as [E|E].
  - cbn [orb]. replace (parts v) with (@nil bytes).
    + cbn. rewrite app_nil_r. pose proof (inner_ws_ok v Hv) as H.
      destruct (inner_ws v) as [|c w] using rev_ind; [reflexivity|].
      rewrite removelast_last. rewrite ws_ok_app in H. apply andb_true_iff in H. tauto.
    + destruct v as [s|s|w els|w ms]; try reflexivity; [destruct els|destruct ms]; try reflexivity; discriminate.
  - cbn [orb]. destruct (join_first_nonblank v Hv E) as (u & c & r & Eq & Hcc & Hr).
    destruct (lone v) eqn:El.
    + destruct v as [s|s|w els|w ms]; try discriminate. destruct els as [|e [|]]; try discriminate.
      cbn [lone] in El. apply andb_true_iff in El. destruct El as [El1 El2]. apply Nat.eqb_eq in El1.
      destruct (e_post e) eqn:Ep; [|discriminate].
      rewrite wf_arr in Hv. cbn [forallb] in Hv. nbool. unfold elem_ok in H0. nbool.
      cbn [inner_ws parts map join]. unfold elem_text. rewrite Ep, app_nil_r.
      destruct (render (e_val e)) as [|x [|]]; try discriminate.
      rewrite app_assoc, removelast_last, ws_ok_app. rewrite H, H0. reflexivity.
    + rewrite Eq. destruct Hr as [Hr|(w & e & -> & Ep & El2)].
      * rewrite removelast_app by discriminate. destruct r as [|x r]; [contradiction|].
        change (removelast (c :: x :: r)) with (c :: removelast (x :: r)). apply ws_ok_cons_false. exact Hcc.
      * exfalso. cbn [lone] in El. rewrite El2, Ep in El. discriminate.
Qed.

(** Reading off the interior from the positions. *)
Lemma interior json pre v post k : container v = true -> json = pre ++ render v ++ post ->
  (k <= length (inner_ws v ++ join (parts v)))%nat ->
  firstn k (skipn (S (length pre)) json) = firstn k (inner_ws v ++ join (parts v)).
Proof.
  intros Hc Hj Hk. rewrite Hj, (render_parts v Hc). cbn [app].
  rewrite (app_cons_assoc pre). rewrite skipn_app_eq by (rewrite length_snoc; reflexivity).
  replace ((inner_ws v ++ join (parts v) ++ [closing v]) ++ post)
    with ((inner_ws v ++ join (parts v)) ++ closing v :: post) by same_text.
  rewrite firstn_app. replace (k - length (inner_ws v ++ join (parts v)))%nat with O by lia.
  cbn [firstn]. apply app_nil_r.
Qed.

Lemma core_container d p pre v post : wf_doc d = true -> p <> [] -> focus (d_val d) p pre v post -> container v = true ->
  exists ks, core (text d) false p = Ok (ks, length (d_pre d ++ pre), (length (d_pre d ++ pre) + length (render v))%nat).
Proof.
  intros Hw Hp Hf Hc. destruct (core_present d p pre v post Hw Hp Hf) as (ks & H). exists ks.
  rewrite (H false). destruct v; try discriminate; cbn [qoff bare]; rewrite Nat.add_0_r; reflexivity.
Qed.

Lemma last_nonspace_text d : wf_doc d = true ->
  last_nonspace (text d) = pred (length (d_pre d ++ render (d_val d))).
Proof.
  intro Hw. apply wf_doc_inv in Hw. destruct Hw as (H1 & H2 & H3). unfold last_nonspace, text.
  destruct (render_snoc _ H2) as (p & c & E & Hc). rewrite E.
  replace (d_pre d ++ (p ++ [c]) ++ d_post d) with ((d_pre d ++ p) ++ c :: d_post d) by same_text.
  rewrite rev_app_distr. cbn [rev]. rewrite <- app_assoc. cbn [app].
  rewrite trim1_ws by (try apply ws_rev; assumption). rewrite rev_length. cbn [length pred].
  rewrite rev_length. len.
Qed.

Lemma text_len2 d : wf_doc d = true -> container (d_val d) = true -> (2 <= length (text d))%nat.
Proof. intros Hw Hc. unfold text. rewrite (render_parts _ Hc). len. Qed.

Lemma get_start_end d p pre v post : wf_doc d = true -> focus (d_val d) p pre v post -> container v = true ->
  getStartEnd (text d) p = Ok (length (d_pre d ++ pre),
     match p with [] => pred (length (d_pre d ++ pre) + length (render v)) | _ => length (d_pre d ++ pre) + length (render v) end)%nat.
Proof.
  intros Hw Hf Hc. unfold getStartEnd.
  rewrite (proj2 (Nat.ltb_ge _ _)) by (apply text_len2; [exact Hw|eapply focus_container; eassumption]).
  destruct p as [|x p].
  - pose proof (start_of_present d [] _ _ _ Hw Hf) as Hs. cbn [start_of] in Hs. rewrite Hs. cbn [bind].
    rewrite (last_nonspace_text d Hw). inversion Hf; subst. rewrite app_nil_r, !app_length. reflexivity.
  - destruct (core_container d (x :: p) pre v post Hw ltac:(discriminate) Hf Hc) as (ks & E). rewrite E. reflexivity.
Qed.

Lemma length_spec d p v : wf_doc d = true -> lookup (d_val d) p = Some v -> container v = true ->
  Length (text d) p = Ok (if match p with [] => lone v | _ => false end then O else size v).
Proof.
  intros Hw Hl Hc. destruct (lookup_focus _ _ _ Hl) as (pre & post & Hf).
  pose proof (text_focus _ _ _ _ _ Hf) as Ht.
  assert (Hv : wf v = true) by (eapply focus_wf; [exact Hf|apply wf_doc_inv in Hw; tauto]).
  unfold Length.
  destruct (bytes_eqb (text d) (b "[]") || bytes_eqb (text d) (b "{}")) eqn:Ee.
  - assert (Hlen : length (text d) = 2%nat).
    { apply orb_true_iff in Ee. destruct Ee as [Ee|Ee]; apply bytes_eqb_eq in Ee; rewrite Ee; reflexivity. }
    rewrite Ht, (render_parts v Hc) in Hlen.
    assert (Hz : join (parts v) = []).
    { destruct (join (parts v)); [reflexivity|]. exfalso. revert Hlen. len. }
    assert (Hi : inner_ws v = []).
    { destruct (inner_ws v); [reflexivity|]. exfalso. revert Hlen. len. }
    pose proof (blank_inner v Hv Hc) as Hb. rewrite Hz, Hi in Hb. cbn in Hb. symmetry in Hb. apply Nat.eqb_eq in Hb.
    rewrite Hb. destruct p; [destruct (lone v)|]; reflexivity.
  - rewrite (get_start_end d p pre v post Hw Hf Hc). cbn [bind].
    set (st := length (d_pre d ++ pre)). set (rd := render v).
    assert (Hrd : rd = opening v :: inner_ws v ++ join (parts v) ++ [closing v]) by (apply render_parts; exact Hc).
    assert (Hlr : length rd = S (S (length (inner_ws v ++ join (parts v))))) by (rewrite Hrd; len).
    assert (Hcnt : forall e, e = (st + length rd)%nat \/ e = pred (st + length rd) ->
       length_loop (text d) (firstn (e - st) (skipn st (text d))) st 0 false = pred (size v)).
    { intros e He. rewrite Ht at 2. subst st. rewrite skipn_length_app.
      replace (firstn (e - length (d_pre d ++ pre)) (render v ++ post ++ d_post d))
        with (opening v :: inner_ws v ++ join (parts v) ++ (if (e =? (length (d_pre d ++ pre) + length rd))%nat then [closing v] else [])).
      - apply count_value with (post := post ++ d_post d); try assumption.
        destruct (e =? (length (d_pre d ++ pre) + length rd))%nat; auto.
      - fold rd. destruct (Nat.eqb_spec e (length (d_pre d ++ pre) + length rd)) as [Ev|Ev].
        + rewrite <- Hrd. symmetry. apply firstn_app_eq. lia.
        + destruct He as [He|He]; [contradiction|]. rewrite app_nil_r. symmetry.
          replace (rd ++ post ++ d_post d) with ((opening v :: inner_ws v ++ join (parts v)) ++ closing v :: post ++ d_post d)
            by (rewrite Hrd; same_text).
          apply firstn_app_eq. cbn [length]. lia. }
    destruct p as [|x p].
    + rewrite Hcnt by (right; reflexivity).
      rewrite (interior (text d) (d_pre d ++ pre) v (post ++ d_post d)) by (try assumption; fold st; lia).
      replace (pred (pred (st + length rd)) - S st)%nat with (pred (length (inner_ws v ++ join (parts v)))) by lia.
      rewrite firstn_removelast, forallb_space, blank_inner_short by assumption.
      destruct (size v) as [|[|n]] eqn:Es; cbn [pred Nat.eqb orb].
      * destruct (lone v); reflexivity.
      * destruct (lone v); reflexivity.
      * destruct v as [s|s|w [|e [|e2 l]]|w ms]; try reflexivity; discriminate.
    + rewrite Hcnt by (left; reflexivity).
      rewrite (interior (text d) (d_pre d ++ pre) v (post ++ d_post d)) by (try assumption; fold st; lia).
      replace (pred (st + length rd) - S st)%nat with (length (inner_ws v ++ join (parts v))) by lia.
      rewrite firstn_all, forallb_space, blank_inner by assumption.
      destruct (size v) as [|[|n]] eqn:Es; reflexivity.
Qed.

(** ** IsEmpty *)
Lemma is_empty_container d p v : wf_doc d = true -> lookup (d_val d) p = Some v -> container v = true ->
  IsEmpty (text d) p = Ok ((size v =? 0)%nat || lone v).
Proof.
  intros Hw Hl Hc. destruct (lookup_focus _ _ _ Hl) as (pre & post & Hf).
  pose proof (text_focus _ _ _ _ _ Hf) as Ht.
  assert (Hv : wf v = true) by (eapply focus_wf; [exact Hf|apply wf_doc_inv in Hw; tauto]).
  set (st := length (d_pre d ++ pre)).
  assert (Hse : match p with
         | [] => do s <- skip_space (text d) 0; Ok (s, last_nonspace (text d))
         | _ => do '(_, s, e) <- core (text d) false p; Ok (s, pred e)
         end = Ok (st, pred (st + length (render v)))).
  { destruct p as [|x p].
    - pose proof (start_of_present d [] _ _ _ Hw Hf) as Hs. cbn [start_of] in Hs. rewrite Hs. cbn [bind].
      rewrite (last_nonspace_text d Hw). subst st. inversion Hf; subst. rewrite app_nil_r, !app_length. reflexivity.
    - destruct (core_container d (x :: p) pre v post Hw ltac:(discriminate) Hf Hc) as (ks & E). rewrite E. reflexivity. }
  unfold IsEmpty. destruct (text d) as [|c0 r0] eqn:Et.
  { destruct (text_nonnil d Hw) as (c & r & E). congruence. }
  rewrite <- Et in *. rewrite Hse. cbn [bind].
  pose proof (at_start _ _ _ _ _ (opening v) (inner_ws v ++ join (parts v) ++ [closing v]) Hf (render_parts v Hc)) as Ha.
  fold st in Ha. rewrite Ha. cbn [bind].
  assert (Hlr : length (render v) = S (S (length (inner_ws v ++ join (parts v))))) by (rewrite (render_parts v Hc); len).
  rewrite (at_app_eq _ ((d_pre d ++ pre) ++ opening v :: inner_ws v ++ join (parts v)) (closing v) (post ++ d_post d)).
  - cbn [bind].
    assert (Ho : is_open (opening v) = true /\ (opening v + 2 =? closing v) = true) by (destruct v; split; reflexivity).
    destruct Ho as [-> ->].
    rewrite (interior (text d) (d_pre d ++ pre) v (post ++ d_post d)) by (try assumption; fold st; lia).
    replace (pred (pred (st + length (render v))) - S st)%nat with (pred (length (inner_ws v ++ join (parts v)))) by lia.
    rewrite firstn_removelast, forallb_space, blank_inner_short by assumption. reflexivity.
  - rewrite Ht, (render_parts v Hc). same_text.
  - subst st. rewrite Hlr. len.
Qed.

Lemma is_empty_scalar d p s : wf_doc d = true -> lookup (d_val d) p = Some (JScalar s) ->
  IsEmpty (text d) p = Err EObjectExpected.
Proof.
  intros Hw Hl. destruct (lookup_focus _ _ _ Hl) as (pre & post & Hf).
  pose proof (text_focus _ _ _ _ _ Hf) as Ht.
  assert (Hv : wf (JScalar s) = true) by (eapply focus_wf; [exact Hf|apply wf_doc_inv in Hw; tauto]).
  destruct (render_cons _ Hv) as (c & r & E & _). destruct (render_snoc _ Hv) as (q & c2 & E2 & _).
  destruct (render_first _ c r Hv E) as (E3 & E4 & _). cbn [is_arr is_obj] in *.
  set (st := length (d_pre d ++ pre)).
  assert (Hse : match p with
         | [] => do s <- skip_space (text d) 0; Ok (s, last_nonspace (text d))
         | _ => do '(_, s, e) <- core (text d) false p; Ok (s, pred e)
         end = Ok (st, length (d_pre d ++ pre ++ q))).
  { destruct p as [|x p].
    - pose proof (start_of_present d [] _ _ _ Hw Hf) as Hs. cbn [start_of] in Hs. rewrite Hs. cbn [bind].
      rewrite (last_nonspace_text d Hw). subst st. cbn in Hl. injection Hl as Hl. rewrite Hl, E2. inversion Hf; subst. rewrite app_nil_r.
      do 2 f_equal. len.
    - destruct (core_present d (x :: p) pre _ post Hw ltac:(discriminate) Hf) as (ks & Hcore). rewrite (Hcore false).
      cbn [bind qoff bare]. rewrite Nat.add_0_r. fold st. 
   cbn [render] in E2. rewrite E2.
  subst st. cbn [render]. rewrite !app_length. cbn [length]. f_equal. f_equal. lia. }
  unfold IsEmpty. destruct (text d) as [|c0 r0] eqn:Et.
  { destruct (text_nonnil d Hw) as (cc & rr & EE). congruence. }
  rewrite <- Et in *. rewrite Hse. cbn [bind].
  pose proof (at_start _ _ _ _ _ c r Hf E) as Ha. fold st in Ha. rewrite Ha. cbn [bind].
  rewrite (at_app_eq _ (d_pre d ++ pre ++ q) c2 (post ++ d_post d)); [|rewrite Ht, E2; same_text|reflexivity].
  cbn [bind]. unfold is_open. rewrite E3, E4. reflexivity.
Qed.

Lemma is_empty_string d p s : wf_doc d = true -> lookup (d_val d) p = Some (JString s) ->
  (p <> [] -> match s with c :: _ => is_open c = false | [] => True end) ->
  IsEmpty (text d) p = Err EObjectExpected.
Proof.
  intros Hw Hl Hop. destruct (lookup_focus _ _ _ Hl) as (pre & post & Hf).
  pose proof (text_focus _ _ _ _ _ Hf) as Ht. cbn [render] in Ht.
  unfold IsEmpty. destruct (text d) as [|c0 r0] eqn:Et.
  { destruct (text_nonnil d Hw) as (cc & rr & EE). congruence. }
  rewrite <- Et in *. clear Et c0 r0. destruct p as [|x p].
  - pose proof (start_of_present d [] _ _ _ Hw Hf) as Hs. cbn [start_of] in Hs. rewrite Hs. cbn [bind].
    rewrite (last_nonspace_text d Hw). cbn in Hl. injection Hl as Hl. rewrite Hl.
    pose proof (at_start _ _ _ _ _ 34 (s ++ [34]) Hf eq_refl) as Ha. rewrite Ha. cbn [bind render].
    inversion Hf; subst pre. subst post.
    rewrite (at_app_eq _ (d_pre d ++ 34 :: s) 34 (d_post d)); [reflexivity|rewrite Ht; same_text|len].
  - destruct (core_present d (x :: p) pre _ post Hw ltac:(discriminate) Hf) as (ks & Hcore). rewrite (Hcore false).
    cbn [bind qoff bare]. set (st := (length (d_pre d ++ pre) + 1)%nat).
    assert (Ha : exists c, at_ (text d) st = Ok c /\ is_open c = false).
    { specialize (Hop ltac:(discriminate)). destruct s as [|c s].
      - exists 34. split; [|reflexivity]. apply (at_app_eq _ ((d_pre d ++ pre) ++ [34]) 34 (post ++ d_post d)); [rewrite Ht; same_text|subst st; len].
      - exists c. split; [|exact Hop]. apply (at_app_eq _ ((d_pre d ++ pre) ++ [34]) c (s ++ 34 :: post ++ d_post d)); [rewrite Ht; same_text|subst st; len]. }
    destruct Ha as (c & Ha & Hc). rewrite Ha. cbn [bind].
    assert (Hb : exists c, at_ (text d) (pred (st + length s)) = Ok c).
    { destruct s as [|c2 s _] using rev_ind.
      - exists 34. apply (at_app_eq _ (d_pre d ++ pre) 34 (34 :: post ++ d_post d)); [rewrite Ht; same_text|subst st; len].
      - exists c2. apply (at_app_eq _ ((d_pre d ++ pre) ++ 34 :: s) c2 (34 :: post ++ d_post d)); [rewrite Ht; same_text|subst st; len]. }
    destruct Hb as (c2 & Hb). rewrite Hb. cbn [bind]. rewrite Hc. reflexivity.
Qed.

(** ** GetMap *)
Lemma assoc_put k v m k' :
  assoc k' (map_put k v m) = if bytes_eqb k k' then Some v else assoc k' m.
Proof.
  unfold assoc. induction m as [|[k1 v1] m IH]; cbn [map_put find fst].
  - destruct (bytes_eqb k k'); reflexivity.
  - destruct (bytes_eqb k1 k) eqn:E1.
    + apply bytes_eqb_eq in E1. subst k1. cbn [find fst]. destruct (bytes_eqb k k'); reflexivity.
    + cbn [find fst]. destruct (bytes_eqb k1 k') eqn:E2.
      * apply bytes_eqb_eq in E2. subst k1. destruct (bytes_eqb k k') eqn:E3; [|reflexivity].
        apply bytes_eqb_eq in E3. subst k'. rewrite bytes_eqb_refl in E1. discriminate.
      * exact IH.
Qed.

Lemma map_put_in k v m x : In x (map fst (map_put k v m)) -> x = k \/ In x (map fst m).
Proof.
  induction m as [|[k1 v1] m IH]; cbn [map_put map fst In]; [intuition congruence|].
  destruct (bytes_eqb k1 k); cbn [map fst In]; tauto.
Qed.

Lemma map_put_nodup k v m : NoDup (map fst m) -> NoDup (map fst (map_put k v m)).
Proof.
  induction m as [|[k1 v1] m IH]; cbn [map_put map fst]; intro H.
  - constructor; [intros []|constructor].
  - inversion H; subst. destruct (bytes_eqb k1 k) eqn:E; cbn [map fst]; [exact H|].
    constructor; [|auto]. intro Hi. apply map_put_in in Hi. destruct Hi as [->|Hi]; [|contradiction].
    rewrite bytes_eqb_refl in E. discriminate.
Qed.

Definition put_all (ps : list (bytes * bytes)) (m : gomap) : gomap :=
  fold_left (fun m p => map_put (fst p) (snd p) m) ps m.

Lemma last_assoc_snoc {V} k (ps : list (bytes * V)) p :
  last_assoc k (ps ++ [p]) = if bytes_eqb (fst p) k then Some (snd p) else last_assoc k ps.
Proof. unfold last_assoc. rewrite rev_app_distr. cbn. destruct (bytes_eqb (fst p) k); reflexivity. Qed.

Lemma put_all_map_of ps : map_of (put_all ps []) ps.
Proof.
  induction ps as [|p ps [H1 H2]] using rev_ind; [split; [constructor|reflexivity]|].
  unfold put_all. rewrite fold_left_app. cbn [fold_left]. split.
  - apply map_put_nodup. exact H1.
  - intro k. rewrite assoc_put, last_assoc_snoc, <- H2. reflexivity.
Qed.

Lemma visit_put ps : forall m,
  visit (Er := err) (uncurry2 (fun m k v => (map_put k v m, (true, None)))) ps m = (put_all ps m, None).
Proof. induction ps as [|p ps IH]; intro m; [reflexivity|]. cbn [visit uncurry2]. apply IH. Qed.

Lemma visit_number xs : forall m n,
  visit (Er := err) (fun '(m, n) v => ((map_put (itoa (Z.of_nat n)) v m, S n), (true, None))) xs (m, n) =
  (put_all (combine (map (fun i => itoa (Z.of_nat i)) (seq n (length xs))) xs) m, (n + length xs)%nat, None).
Proof.
  induction xs as [|x xs IH]; intros m n; cbn [visit length].
  - rewrite Nat.add_0_r. reflexivity.
  - rewrite IH. cbn [seq map combine]. unfold put_all. cbn [fold_left fst snd]. rewrite Nat.add_succ_r. reflexivity.
Qed.

Lemma getmap_enter d p pre v post : wf_doc d = true -> focus (d_val d) p pre v post -> container v = true -> size v <> O ->
  bytes_eqb (text d) (b "[]") || bytes_eqb (text d) (b "{}") = false.
Proof.
  intros Hw Hf Hc Hs. pose proof (text_focus _ _ _ _ _ Hf) as Ht.
  assert (Hv : wf v = true) by (eapply focus_wf; [exact Hf|apply wf_doc_inv in Hw; tauto]).
  destruct (bytes_eqb (text d) (b "[]") || bytes_eqb (text d) (b "{}")) eqn:Ee; [exfalso|reflexivity].
  assert (Hlen : length (text d) = 2%nat).
  { apply orb_true_iff in Ee. destruct Ee as [Ee|Ee]; apply bytes_eqb_eq in Ee; rewrite Ee; reflexivity. }
  rewrite Ht, (render_parts v Hc) in Hlen.
  pose proof (blank_inner v Hv Hc) as Hb.
  destruct (inner_ws v ++ join (parts v)) as [|c l] eqn:E.
  - cbn in Hb. symmetry in Hb. apply Nat.eqb_eq in Hb. contradiction.
  - revert Hlen. replace (opening v :: inner_ws v ++ join (parts v) ++ [closing v])
      with (opening v :: (inner_ws v ++ join (parts v)) ++ [closing v]) by same_text.
    rewrite E. len.
Qed.

(** The byte the code looks at to see whether the container is closed. *)
Lemma getmap_last d p pre v post : wf_doc d = true -> focus (d_val d) p pre v post -> container v = true ->
  exists e, getStartEnd (text d) p = Ok (length (d_pre d ++ pre), e) /\
  (p = [] -> at_ (text d) e = Ok (closing v)) /\
  (p <> [] -> forall c r, post ++ d_post d = c :: r -> at_ (text d) e = Ok c).
Proof.
  intros Hw Hf Hc. pose proof (text_focus _ _ _ _ _ Hf) as Ht.
  rewrite (get_start_end d p pre v post Hw Hf Hc). eexists. split; [reflexivity|]. split.
  - intros ->. inversion Hf; subst.
    apply (at_app_eq _ (d_pre d ++ opening (d_val d) :: inner_ws (d_val d) ++ join (parts (d_val d))) (closing (d_val d)) (d_post d)).
    + rewrite Ht, (render_parts _ Hc). same_text.
    + rewrite (render_parts _ Hc). len.
  - intros Hp c r E. destruct p; [contradiction|].
    apply (at_app_eq _ (d_pre d ++ pre ++ render v) c r).
    + rewrite Ht, E. same_text.
    + len.
Qed.

Lemma get_map_obj d p pre w ms post :
  wf_doc d = true -> focus (d_val d) p pre (JObj w ms) post -> ms <> [] -> Forall tight (removelast ms) ->
  closed_after d p (JObj w ms) post ->
  exists m, GetMap (text d) p = Ok (Some m) /\ map_of m (pairs ms).
Proof.
  intros Hw Hf Hne Ht Hcl. assert (Hl := focus_lookup _ _ _ _ _ Hf).
  assert (Hv : wf (JObj w ms) = true) by (eapply focus_wf; [exact Hf|apply wf_doc_inv in Hw; tauto]).
  exists (put_all (pairs ms) []). split; [|apply put_all_map_of].
  unfold GetMap. rewrite (getmap_enter d p pre (JObj w ms) post Hw Hf eq_refl) by (cbn; destruct ms; [contradiction|discriminate]).
  destruct (getmap_last d p pre (JObj w ms) post Hw Hf eq_refl) as (e & E & He1 & He2). rewrite E. cbn [bind].
  rewrite (at_start _ _ _ _ _ 123 (w ++ join (map mem_text ms) ++ [125]) Hf eq_refl). cbn [bind].
  change (123 =? 123) with true. cbv beta iota.
  assert (Ha : at_ (text d) e = Ok 125).
  { destruct Hcl as [Hcl|(r & Hr)]; [apply He1; exact Hcl|]. destruct p; [apply He1; reflexivity|].
    exact (He2 ltac:(discriminate) _ _ Hr). }
  rewrite Ha. cbn [bind]. change (125 =? 125) with true. cbv beta iota.
  rewrite (iterate_kv (St := gomap) _ d p w ms [] Hw Hl Hne).
  rewrite wf_obj in Hv. nbool. rewrite shown_pairs_tight by assumption. rewrite !visit_put. reflexivity.
Qed.

Lemma get_map_arr d p pre w els post :
  wf_doc d = true -> focus (d_val d) p pre (JArr w els) post -> els <> [] ->
  closed_after d p (JArr w els) post ->
  exists m, GetMap (text d) p = Ok (Some m) /\ map_of m (numbered (fun i => itoa (Z.of_nat i)) (items els)).
Proof.
  intros Hw Hf Hne Hcl. assert (Hl := focus_lookup _ _ _ _ _ Hf).
  exists (put_all (numbered (fun i => itoa (Z.of_nat i)) (items els)) []). split; [|apply put_all_map_of].
  unfold GetMap. rewrite (getmap_enter d p pre (JArr w els) post Hw Hf eq_refl) by (cbn; destruct els; [contradiction|discriminate]).
  destruct (getmap_last d p pre (JArr w els) post Hw Hf eq_refl) as (e & E & He1 & He2). rewrite E. cbn [bind].
  rewrite (at_start _ _ _ _ _ 91 (w ++ join (map elem_text els) ++ [93]) Hf eq_refl). cbn [bind].
  change (91 =? 123) with false. change (91 =? 91) with true. cbv beta iota.
  assert (Ha : at_ (text d) e = Ok 93).
  { destruct Hcl as [Hcl|(r & Hr)]; [apply He1; exact Hcl|]. destruct p; [apply He1; reflexivity|].
    exact (He2 ltac:(discriminate) _ _ Hr). }
  rewrite Ha. cbn [bind]. change (93 =? 93) with true. cbv beta iota.
  rewrite (iterate_array _ d p w els _ Hw Hl Hne). rewrite visit_number. reflexivity.
Qed.

(** ** GetAll and GetAllMap *)
Fixpoint all_ok (rs : list (res bytes)) : res (list bytes) :=
  match rs with [] => Ok [] | r :: l => do v <- r; do vs <- all_ok l; Ok (v :: vs) end.

Lemma get_all_ok json ks path vs :
  GetAll json ks path = Ok vs <-> Forall2 (fun k v => GetString json (path ++ [k]) = Ok v) ks vs.
Proof.
  revert vs. induction ks as [|k ks IH]; intro vs; cbn [GetAll].
  - split; [intro H; injection H as <-; constructor|intro H; inversion H; reflexivity].
  - split.
    + destruct (GetString json (path ++ [k])) as [v|e|] eqn:E; cbn [bind]; try discriminate.
      destruct (GetAll json ks path) as [l|e|]; cbn [bind]; try discriminate.
      intro H. injection H as <-. constructor; [exact E|]. apply IH. reflexivity.
    + intro H. inversion H as [|? v ? l H1 H2]; subst. rewrite H1. cbn [bind].
      apply IH in H2. rewrite H2. reflexivity.
Qed.

Lemma get_all_err json ks path e :
  GetAll json ks path = Err e <->
  exists ks1 k ks2 vs, ks = ks1 ++ k :: ks2 /\ Forall2 (fun k v => GetString json (path ++ [k]) = Ok v) ks1 vs /\
                       GetString json (path ++ [k]) = Err e.
Proof.
  induction ks as [|k ks IH]; cbn [GetAll].
  - split; [discriminate|]. intros (ks1 & k & ks2 & vs & E & _). destruct ks1; discriminate.
  - split.
    + destruct (GetString json (path ++ [k])) as [v|e'|] eqn:E; cbn [bind]; try discriminate.
      * destruct (GetAll json ks path) as [l|e'|]; cbn [bind]; try discriminate. intro H. injection H as ->.
        destruct (proj1 IH eq_refl) as (ks1 & k' & ks2 & vs & -> & HF & Hk).
        exists (k :: ks1), k', ks2, (v :: vs). split; [reflexivity|]. split; [constructor; assumption|exact Hk].
      * intro H. injection H as ->. exists [], k, ks, []. split; [reflexivity|]. split; [constructor|exact E].
    + intros (ks1 & k' & ks2 & vs & E & HF & Hk). destruct ks1 as [|k1 ks1]; cbn [app] in E; injection E as -> ->.
      * rewrite Hk. reflexivity.
      * inversion HF as [|? v ? l H1 H2]; subst. rewrite H1. cbn [bind].
        rewrite (proj2 IH); [reflexivity|]. exists ks1, k', ks2, l. auto.
Qed.

Lemma get_all_map_put json ks path : forall m,
  get_all_map json ks path m = do vs <- GetAll json ks path; Ok (put_all (combine ks vs) m).
Proof.
  induction ks as [|k ks IH]; intro m; cbn [get_all_map GetAll]; [reflexivity|].
  destruct (GetString json (path ++ [k])) as [v|e|]; cbn [bind]; try reflexivity.
  rewrite IH. destruct (GetAll json ks path); reflexivity.
Qed.

Lemma get_all_map_ok json ks path vs : GetAll json ks path = Ok vs ->
  exists m, GetAllMap json ks path = Ok m /\ map_of m (combine ks vs).
Proof.
  intro H. exists (put_all (combine ks vs) []). split; [|apply put_all_map_of].
  unfold GetAllMap. rewrite get_all_map_put, H. reflexivity.
Qed.

Lemma get_all_map_err json ks path e : GetAll json ks path = Err e <-> GetAllMap json ks path = Err e.
Proof.
  unfold GetAllMap. rewrite get_all_map_put. destruct (GetAll json ks path); cbn [bind]; split; congruence.
Qed.

(** ** Values of the wrong kind *)
Lemma text_braces_obj d p v : wf_doc d = true -> lookup (d_val d) p = Some v -> is_obj v = false -> bytes_eqb (text d) (b "{}") = false.
Proof.
  intros Hw Hl Hk. destruct (bytes_eqb (text d) (b "{}")) eqn:E; [exfalso|reflexivity]. apply bytes_eqb_eq in E.
  apply wf_doc_inv in Hw. destruct Hw as (H1 & H2 & H3). unfold text in E.
  destruct (d_pre d) as [|c w]; [|cbn in E; injection E as -> _; discriminate H1].
  cbn [app] in E. destruct (render_cons _ H2) as (c & r & Er & Hc). rewrite Er in E. cbn in E. injection E as -> E.
  destruct (render_first _ _ _ H2 Er) as (E1 & E2 & _).
  destruct (d_val d) as [s|s|w els|w ms]; try discriminate E1; try discriminate E2. rewrite render_obj in Er. injection Er as Er.
  destruct w as [|c w]; [|subst r; cbn in E; injection E as -> _; cbn in H2; discriminate H2].
  destruct ms as [|m ms].
  - destruct p as [|x p]; cbn in Hl; [injection Hl as <-; discriminate|discriminate].
  - rewrite <- Er in E. cbn [app map] in E. rewrite join_cons in E. unfold mem_text in E.
    rewrite wf_obj in H2. cbn [forallb] in H2. nbool. unfold mem_ok in *. nbool.
    destruct (m_pre m) as [|c w]; cbn [app] in E; injection E as E; [discriminate E|].
    match goal with H : ws_ok (c :: w) = true |- _ => subst c; discriminate H end.
Qed.

Lemma iterate_kv_wrong {St} (cb : St -> bytes -> bytes -> St * (bool * option err)) d p v s :
  wf_doc d = true -> lookup (d_val d) p = Some v -> is_obj v = false ->
  IterateKeyValue (text d) cb p s = IDone s (Some EObjectExpected).
Proof.
  intros Hw Hl Hk. destruct (lookup_focus _ _ _ Hl) as (pre & post & Hf).
  assert (Hv : wf v = true) by (eapply focus_wf; [exact Hf|apply wf_doc_inv in Hw; tauto]).
  destruct (render_cons v Hv) as (c & r & E & _). destruct (render_first v c r Hv E) as (_ & E2 & _).
  unfold IterateKeyValue. rewrite (text_braces_obj d p v Hw Hl Hk), (start_of_present _ _ _ _ _ Hw Hf). cbn [ibind].
  rewrite (at_start _ _ _ _ _ _ _ Hf E). cbn [ibind]. rewrite E2, Hk. reflexivity.
Qed.

Lemma get_kv_wrong d p v :
  wf_doc d = true -> lookup (d_val d) p = Some v -> is_obj v = false ->
  GetKeys (text d) p = Err EObjectExpected /\ GetValues (text d) p = Err EObjectExpected /\
  GetKeysValues (text d) p = Err EObjectExpected.
Proof.
  intros Hw Hl Hk. destruct (lookup_focus _ _ _ Hl) as (pre & post & Hf).
  assert (Hv : wf v = true) by (eapply focus_wf; [exact Hf|apply wf_doc_inv in Hw; tauto]).
  destruct (render_cons v Hv) as (c & r & E & _). destruct (render_first v c r Hv E) as (_ & E2 & _).
  unfold GetKeys, GetValues, GetKeysValues.
  rewrite (text_braces_obj d p v Hw Hl Hk), (start_of_present _ _ _ _ _ Hw Hf). cbn [bind].
  rewrite (at_start _ _ _ _ _ _ _ Hf E). cbn [bind]. rewrite E2, Hk. auto.
Qed.

Lemma iterate_array_wrong {St} (cb : St -> bytes -> St * (bool * option err)) d p v s :
  wf_doc d = true -> lookup (d_val d) p = Some v -> is_arr v = false ->
  IterateArray (text d) cb p s = IDone s (Some (if (length (text d) <? 3)%nat then EBadJSON 0 else EArrayExpected)).
Proof.
  intros Hw Hl Hk. destruct (lookup_focus _ _ _ Hl) as (pre & post & Hf).
  pose proof (text_focus _ _ _ _ _ Hf) as Ht.
  assert (Hv : wf v = true) by (eapply focus_wf; [exact Hf|apply wf_doc_inv in Hw; tauto]).
  destruct (render_cons v Hv) as (c & r & E & _). destruct (render_first v c r Hv E) as (E1 & _ & _).
  unfold IterateArray. destruct (Nat.ltb_spec (length (text d)) 3) as [H3|H3].
  - destruct (Nat.ltb_spec (length (text d)) 2) as [H2|H2]; [reflexivity|].
    destruct (Nat.eqb_spec (length (text d)) 2) as [H4|H4]; [|lia].
    destruct (bytes_eqb (text d) (b "[]")) eqn:Eb; [exfalso|reflexivity].
    apply bytes_eqb_eq in Eb. change (b "[]") with [91; 93] in Eb.
    apply wf_doc_inv in Hw. destruct Hw as (W1 & W2 & W3).
    destruct (render_cons _ W2) as (c0 & r0 & E0 & Hc0). destruct (render_first _ _ _ W2 E0) as (F1 & F2 & F3).
    unfold text in Eb. rewrite E0 in Eb. destruct (d_pre d) as [|x w]; cbn [app] in Eb.
    + injection Eb as -> Eb. destruct (d_val d) as [s0|s0|w els|w ms] eqn:Ed; try discriminate F1.
      rewrite render_arr in E0. injection E0 as E0.
      destruct p as [|x p]; cbn in Hl; [injection Hl as <-; discriminate|].
      destruct els as [|e els]; [destruct (atoi x); [|discriminate]; unfold nth_z in Hl; cbn in Hl; destruct (0 <=? z)%Z; cbn in Hl; try discriminate; destruct (z <? 0)%Z; cbn in Hl; try discriminate; destruct (Z.to_nat z); discriminate|].
      rewrite <- E0 in Eb. cbn [map] in Eb. rewrite join_cons in Eb.
      rewrite wf_arr in W2. cbn [forallb] in W2. nbool. unfold elem_ok in *. nbool.
      destruct (render_cons (e_val e) ltac:(assumption)) as (c1 & r1 & E3 & Hc1).
      apply (f_equal (@length N)) in Eb. revert Eb. unfold elem_text. rewrite E3. len.
    + injection Eb as -> _. discriminate W1.
  - rewrite (proj2 (Nat.ltb_ge _ _)) by lia. rewrite (proj2 (Nat.eqb_neq _ _)) by lia.
    assert (Hs : match p with
                 | [] => skip_space_last (text d) 0
                 | _ => do '(_, st, _) <- core (text d) true p; Ok st
                 end = Ok (length (d_pre d ++ pre))).
    { destruct p as [|x p].
      - inversion Hf; subst. rewrite app_nil_r. apply wf_doc_inv in Hw. destruct Hw as (W1 & W2 & W3).
        destruct (render_cons _ W2) as (c0 & r0 & E0 & Hc0). unfold text. rewrite E0. cbn [app].
        exact (skip_space_last_ws (d_pre d) c0 _ 0%nat W1 Hc0).
      - destruct (core_present d (x :: p) pre v post Hw ltac:(discriminate) Hf) as (ks & H). rewrite (H true). reflexivity. }
    rewrite Hs. cbn [ibind]. rewrite (at_start _ _ _ _ _ _ _ Hf E). cbn [ibind]. rewrite E1, Hk. reflexivity.
Qed.

(** ** Restatements used by the property files *)
Lemma idone_eq {St} (r : St * option err) : idone r = IDone (fst r) (snd r).
Proof. destruct r. reflexivity. Qed.

Lemma iterate_array_empty' {St} (cb : St -> bytes -> St * (bool * option err)) d p w s :
  wf_doc d = true -> lookup (d_val d) p = Some (JArr w []) ->
  IterateArray (text d) cb p s =
  if bytes_eqb (text d) (b "[]") then IDone s None
  else IDone (fst (cb s (skipn (pred (length w)) w))) (snd (snd (cb s (skipn (pred (length w)) w)))).
Proof.
  intros Hw Hl. rewrite (iterate_array_empty cb d p w s Hw Hl). destruct (bytes_eqb (text d) (b "[]")); [reflexivity|].
  destruct (cb s (skipn (pred (length w)) w)) as [s' [g e]]. reflexivity.
Qed.

Lemma iterate_kv_tight {St} (cb : St -> bytes -> bytes -> St * (bool * option err)) d p w ms s :
  wf_doc d = true -> lookup (d_val d) p = Some (JObj w ms) -> ms <> [] -> Forall tight (removelast ms) ->
  IterateKeyValue (text d) cb p s =
  IDone (fst (visit (uncurry2 cb) (pairs ms) s)) (snd (visit (uncurry2 cb) (removelast (pairs ms)) s)).
Proof.
  intros Hw Hl Hne Ht. destruct (lookup_focus _ _ _ Hl) as (pre & post & Hf).
  assert (Hv : wf (JObj w ms) = true) by (eapply focus_wf; [exact Hf|apply wf_doc_inv in Hw; tauto]).
  rewrite (iterate_kv cb d p w ms s Hw Hl Hne). rewrite wf_obj in Hv. nbool.
  rewrite shown_pairs_tight by assumption. reflexivity.
Qed.

Lemma length_ok d p v : wf_doc d = true -> lookup (d_val d) p = Some v -> container v = true -> p <> [] \/ lone v = false ->
  Length (text d) p = Ok (size v).
Proof.
  intros Hw Hl Hc Hor. rewrite (length_spec d p v Hw Hl Hc).
  destruct p; [|reflexivity]. destruct Hor as [Hor|Hor]; [contradiction|]. rewrite Hor. reflexivity.
Qed.

Lemma is_object_not_arr d p v : wf_doc d = true -> lookup (d_val d) p = Some v -> is_arr v = false ->
  IsObject (text d) p = Ok (is_obj v).
Proof. intros Hw Hl Ha. rewrite (is_object d p v Hw Hl). destruct v; try reflexivity. discriminate Ha. Qed.

Lemma is_empty_not_lone d p v : wf_doc d = true -> lookup (d_val d) p = Some v -> container v = true -> lone v = false ->
  IsEmpty (text d) p = Ok (size v =? 0)%nat.
Proof. intros Hw Hl Hc Hn. rewrite (is_empty_container d p v Hw Hl Hc), Hn, orb_false_r. reflexivity. Qed.

Lemma get_type_kind pf d p v : wf_doc d = true -> lookup (d_val d) p = Some v ->
  match v with JScalar s => s = b "true" \/ s = b "false" \/ s = b "null" \/ pf s = true | _ => True end ->
  p <> [] \/ is_str v = true \/ container v = true \/ (d_pre d = [] /\ d_post d = []) ->
  GetType pf (text d) p = Ok (match v with
  | JArr _ _ => TArray | JObj _ _ => TObject | JString _ => TString
  | JScalar s => if bytes_eqb s (b "true") || bytes_eqb s (b "false") then TBoolean
                 else if bytes_eqb s (b "null") then TNull
                 else TNumber
  end).
Proof.
  intros Hw Hl Hn Hor. rewrite (get_type pf d p v Hw Hl Hor). destruct v as [s|s|w els|w ms]; try reflexivity.
  unfold token_type. destruct Hn as [->|[->|[->|Hn]]]; try reflexivity. rewrite Hn.
  destruct (bytes_eqb s (b "true") || bytes_eqb s (b "false")); [reflexivity|]. destruct (bytes_eqb s (b "null")); [reflexivity|].
  destruct (atoi s); reflexivity.
Qed.
