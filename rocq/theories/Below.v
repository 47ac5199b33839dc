(** Paths that go on below a value that is not a container: what the key search makes of the text that follows. *)
From Coq Require Import String.
From Verif Require Import GoStd Json Core Skip Focus CoreProofs CoreNeg CoreSib SpecProofs ApiProofs.
From Verif Require Domains.

Local Open Scope N_scope.

Notation finish json := (fun st => if (offset st =? 0)%nat then Err (EBadJSON 0)
             else bind (skip_space (skipn (offset st) json) (offset st))
                  (fun off' => value_end json (keyst st) off')).

(** ** From a container to the result *)
Lemma AtC_value json path r k pre c post p pre' v post' :
  wf c = true -> AtC json path r k pre c post -> p <> [] -> length path = (k + length p)%nat ->
  (forall j, (j < length p)%nat -> nth (k + j) path [] = nth j p []) -> focus c p pre' v post' ->
  exists ks, bind r (finish json) =
    Ok (ks, (length (pre ++ pre') + qoff v)%nat, (length (pre ++ pre') + qoff v + length (bare v))%nat) /\
    json = (pre ++ pre') ++ render v ++ post' ++ post.
Proof.
  intros Hw Hat Hp Hlen Hn Hf. destruct (exists_last Hp) as (q & x & ->). clear Hp.
  destruct (focus_split _ _ _ _ _ _ Hf) as (pre1 & c1 & post1 & pre2 & post2 & Hf1 & Hf2 & -> & ->).
  rewrite app_length in Hlen. cbn [length] in Hlen.
  assert (Hc1 : container c1 = true) by (inversion Hf2; reflexivity).
  assert (Hw1 : wf c1 = true) by (eapply focus_wf; eassumption).
  assert (Hat1 : AtC json path r (k + length q) (pre ++ pre1) c1 (post1 ++ post)).
  { apply (AtC_descend _ _ _ q k pre c post); try assumption; [lia|]. intros j Hj. rewrite Hn by (rewrite app_length; lia). apply app_nth1. exact Hj. }
  assert (Hx : nth (k + length q) path [] = x).
  { rewrite Hn by (rewrite app_length; cbn [length]; lia). rewrite app_nth2 by lia. rewrite Nat.sub_diag. reflexivity. }
  inversion Hf2; subst; match goal with H : focus _ [] _ _ _ |- _ => inversion H; subst end; pose proof Hat1 as [Hj1 _].
  - assert (Hoke : elem_ok e = true) by (rewrite wf_arr, forallb_app in Hw1; cbn [forallb] in Hw1; nbool; assumption).
    assert (Hj : json = (pre ++ pre1 ++ arr_pre w l1 e ++ []) ++ render (e_val e) ++ (([] ++ arr_post e l2) ++ post1) ++ post).
    { rewrite Hj1, render_arr_split. same_text. }
    eexists. split; [|exact Hj].
    apply (core_finish json r _ _ (e_val e) ((([] ++ arr_post e l2) ++ post1) ++ post) false).
    + unfold elem_ok in Hoke. nbool. assumption.
    + exact Hj.
    + cbn [app]. rewrite <- app_assoc. apply term_arr. exact Hoke.
    + rewrite app_nil_r. rewrite app_assoc. apply (AtC_last_arr json path r (k + length q) (pre ++ pre1) w l1 e l2 (post1 ++ post)); [assumption|lia|assumption|assumption].
  - assert (Hokm : mem_ok m = true) by (rewrite wf_obj, forallb_app in Hw1; cbn [forallb] in Hw1; nbool; assumption).
    assert (Hj : json = (pre ++ pre1 ++ obj_pre w l1 m ++ []) ++ render (m_val m) ++ (([] ++ obj_post m l2) ++ post1) ++ post).
    { rewrite Hj1, render_obj_split. same_text. }
    eexists. split; [|exact Hj].
    apply (core_finish json r _ _ (m_val m) ((([] ++ obj_post m l2) ++ post1) ++ post) false).
    + unfold mem_ok in Hokm. nbool. assumption.
    + exact Hj.
    + cbn [app]. rewrite <- app_assoc. apply term_obj. exact Hokm.
    + rewrite app_nil_r. rewrite app_assoc. apply (AtC_last_obj json path r (k + length q) (pre ++ pre1) w l1 m l2 (post1 ++ post)); [assumption|lia|symmetry; assumption|assumption|assumption].
Qed.

Lemma AtC_bad_step json path r k pre w els post :
  wf (JArr w els) = true -> AtC json path r k pre (JArr w els) post -> (k < length path)%nat ->
  Domains.bad_step els (nth k path []) = true -> exists e, bind r (finish json) = Err e.
Proof.
  intros Hw [Hj Hr] Hk Hb. rewrite Hr, OUT_arr by (try reflexivity; exact Hk). unfold arr_step. cbn [cur offset brace keyst].
  unfold Domains.bad_step in Hb. rewrite wf_arr in Hw. nbool. destruct (atoi (nth k path [])) as [z|] eqn:Hx; [|eexists; reflexivity].
  destruct (nth_z els z) eqn:En; [discriminate|]. destruct (Z.eqb_spec z 0) as [-> |Hz].
  - destruct els as [|e0 els]; [|discriminate En].
    assert (Hj2 : json = (pre ++ [91]) ++ w ++ 93 :: post) by (rewrite Hj, render_arr; cbn [map join]; same_text).
    assert (Hs : skipn (S (length pre)) json = w ++ 93 :: post).
    { rewrite Hj2. apply skipn_app_eq. rewrite length_snoc. reflexivity. }
    rewrite Hs, arr0_ws by (try assumption; reflexivity). change (is_open 93) with false. cbv iota.
    destruct (S k =? length path)%nat eqn:Ek; [|eexists; reflexivity]. apply Nat.eqb_eq in Ek.
    cbn [bind]. rewrite OUT_end by lia. cbn [bind offset keyst]. cbn [Nat.eqb].
    rewrite Hs, skip_space_ws by (try assumption; reflexivity). cbn [bind].
    unfold value_end.
    assert (Hpos : (S (length pre) + length w)%nat = length ((pre ++ [91]) ++ w)) by len.
    rewrite Hpos.
    assert (Hj3 : json = ((pre ++ [91]) ++ w) ++ 93 :: post) by (rewrite Hj2; same_text).
    rewrite (at_app_eq json ((pre ++ [91]) ++ w) 93 post _ Hj3 eq_refl).
    cbn [bind]. change (is_open 93) with false. change (93 =? 34) with false. cbv iota.
    exists EEmptyArray. rewrite Hj3 at 1. rewrite skipn_length_app. cbn [token_loop].
    change (space 93 || (93 =? 44) || (93 =? 93) || (93 =? 125)) with true. cbv iota.
    rewrite Nat.eqb_refl. reflexivity.
  - exists EIndexOutOfRange. rewrite Hj at 2. rewrite skipn_length_app.
    rewrite arr_missing; [reflexivity|assumption|assumption|exact Hj|exact Hz|exact En].
Qed.

(** ** The key search after the key was found *)
Section Found.
  Variables (json : bytes) (path : list bytes) (k : nat) (s0 e0 : nat) (x : bytes).
  Hypothesis Hm : key_match json x s0 e0 = true.
  Hypothesis Hk : (S (S k) <= length path)%nat.
  Local Notation KF rest i lv o br := (key_loop json path rest i 0 k lv true false s0 e0 (CSt o br x None)).

  Lemma key_flat s : no_brace s = true -> forall rest i lv o br, exists o', KF (s ++ rest) i lv o br = KF rest (i + length s)%nat lv o' br.
  Proof.
    induction s as [|c s IH]; intros Hb rest i lv o br; [exists o; cbn [app length]; rewrite Nat.add_0_r; reflexivity|].
    unfold no_brace in Hb. cbn [forallb] in Hb. apply andb_true_iff in Hb. destruct Hb as [Hc Hb]. apply andb_true_iff in Hc. destruct Hc as [Ho Hc].
    apply negb_true_iff in Ho, Hc. cbn [length]. replace (i + S (length s))%nat with (S i + length s)%nat by lia.
    cbn [app key_loop]. change (i <? 0)%nat with false. cbv iota.
    destruct (c =? 34); [apply IH; exact Hb|].
    destruct ((lv =? S k)%nat && (c =? 58)).
    - cbn [cur]. rewrite Hm. destruct (S k =? length path)%nat eqn:E; [apply Nat.eqb_eq in E; lia|]. cbn [brace keyst]. apply IH. exact Hb.
    - unfold is_open in Ho. apply orb_false_iff in Ho. destruct Ho as [Ho1 Ho2]. rewrite Ho1, Ho2, Hc. apply IH. exact Hb.
  Qed.

  (** The items up to the first container. *)
  Lemma next_none l : Forall (sib_ok json k) l -> Domains.next_container (map sib_item l) = Some None -> no_brace (jpost (map sib_text l)) = true.
  Proof.
    induction l as [|[[[y h] v] t] l IH]; intros Hok Hn; [reflexivity|]. inversion Hok as [|? ? H0 Hl]; subst. destruct H0 as (Hb & _ & Hw & Ht & _).
    cbn [map sib_item Domains.next_container] in Hn. cbn [map]. rewrite jpost_cons. change (44 :: ?a) with ([44] ++ a). cbn [sib_text].
    destruct (Domains.no_brace y) eqn:Ey; [|discriminate]. rewrite !no_brace_app, !andb_true_iff.
    assert (Hr : Domains.next_container (map sib_item l) = Some None /\ no_brace (render v) = true).
    { destruct v as [z|z|w els|w ms]; try discriminate.
      - split; [exact Hn|apply no_brace_scalar; exact Hw].
      - destruct (Domains.no_brace z) eqn:Ez; [|discriminate]. split; [exact Hn|]. cbn [render].
        change (34 :: z ++ [34]) with ([34] ++ z ++ [34]). rewrite !no_brace_app. rewrite (Ez : no_brace z = true). reflexivity. }
    destruct Hr as [Hr Hv]. repeat split; [apply Hb; exact Ey|exact Hv|apply no_brace_ws; exact Ht|apply IH; assumption].
  Qed.

  Lemma next_some l c : Forall (sib_ok json k) l -> Domains.next_container (map sib_item l) = Some (Some c) ->
    exists A t B, jpost (map sib_text l) = A ++ render c ++ t ++ jpost (map sib_text B) /\ no_brace A = true /\ wf c = true /\
      container c = true /\ ws_ok t = true /\ (forall pre, nobs pre -> nobs (pre ++ A)) /\ Forall (sib_ok json k) B.
  Proof.
    induction l as [|[[[y h] v] t] l IH]; intros Hok Hn; [discriminate|]. inversion Hok as [|? ? H0 Hl]; subst. destruct H0 as (Hb & _ & Hw & Ht & Hh).
    cbn [map sib_item Domains.next_container] in Hn. cbn [map]. rewrite jpost_cons. cbn [sib_text].
    destruct (Domains.no_brace y) eqn:Ey; [|discriminate].
    assert (Hgo : Domains.next_container (map sib_item l) = Some (Some c) -> no_brace (render v) = true ->
      exists A t0 B, 44 :: (h ++ render v ++ t) ++ jpost (map sib_text l) = A ++ render c ++ t0 ++ jpost (map sib_text B) /\ no_brace A = true /\ wf c = true /\
      container c = true /\ ws_ok t0 = true /\ (forall pre, nobs pre -> nobs (pre ++ A)) /\ Forall (sib_ok json k) B).
    { intros Hr Hv. destruct (IH Hl Hr) as (A & t0 & B & E & HA & Hrest). exists ([44] ++ h ++ render v ++ t ++ A), t0, B.
      split; [rewrite E; same_text|]. split; [rewrite !no_brace_app, !andb_true_iff; repeat split; [apply Hb; exact Ey|exact Hv|apply no_brace_ws; exact Ht|exact HA]|].
      destruct Hrest as (H1 & H2 & H3 & H4 & H5). do 3 (split; [assumption|]). split; [|exact H5].
      intros pre Hp. rewrite !app_assoc. apply H4. apply nobs_ws; [|exact Ht]. apply nobs_render. exact Hw. }
    assert (Hend : container v = true -> Some (Some v) = Some (Some c) ->
      exists A t0 B, 44 :: (h ++ render v ++ t) ++ jpost (map sib_text l) = A ++ render c ++ t0 ++ jpost (map sib_text B) /\ no_brace A = true /\ wf c = true /\
      container c = true /\ ws_ok t0 = true /\ (forall pre, nobs pre -> nobs (pre ++ A)) /\ Forall (sib_ok json k) B).
    { intros Hc E. injection E as <-. exists ([44] ++ h), t, l. split; [same_text|]. split; [rewrite no_brace_app, (Hb Ey); reflexivity|].
      do 3 (split; [assumption|]). split; [|exact Hl]. intros pre Hp. rewrite app_assoc. apply Hh. apply nobs_snoc. discriminate. }
    destruct v as [z|z|w els|w ms].
    - apply Hgo; [exact Hn|apply no_brace_scalar; exact Hw].
    - destruct (Domains.no_brace z) eqn:Ez; [|discriminate]. apply Hgo; [exact Hn|]. cbn [render].
      change (34 :: z ++ [34]) with ([34] ++ z ++ [34]). rewrite !no_brace_app. rewrite (Ez : no_brace z = true). reflexivity.
    - apply Hend; [reflexivity|exact Hn].
    - apply Hend; [reflexivity|exact Hn].
  Qed.

  (** At a container: as if it were the value, except that in the parent's objects the level is one less. *)
  Lemma key_enter_arr pre w els post lv o br : json = pre ++ render (JArr w els) ++ post ->
    AtC json path (bind (KF (render (JArr w els) ++ post) (length pre) lv o br) (fun '(k', st') => OUT json path (S k') st'))
      (S k) pre (JArr w els) post.
  Proof.
    intro Hj. split; [exact Hj|]. rewrite render_arr. cbn [app key_loop]. change (length pre <? 0)%nat with false.
    change (91 =? 34) with false. change (91 =? 58) with false. rewrite andb_false_r. change (91 =? 91) with true. cbv iota.
    rewrite (nth_error_nth' path []) by lia. reflexivity.
  Qed.

  Lemma key_enter_obj (pre w : bytes) (ms : list (mem jv)) post lv o br :
    KF (render (JObj w ms) ++ post) (length pre) lv o br =
    key_loop json path (w ++ join (map mem_text ms) ++ 125 :: post) (S (length pre)) 0 (S k) (S lv) false false s0 e0 (CSt o br (nth (S k) path []) None).
  Proof.
    rewrite render_obj. cbn [app key_loop]. change (length pre <? 0)%nat with false.
    change (123 =? 34) with false. change (123 =? 58) with false. rewrite andb_false_r. change (123 =? 91) with false. change (123 =? 123) with true.
    cbv iota. rewrite (nth_error_nth' path []) by lia. cbn [keyst offset brace]. f_equal. same_text.
  Qed.
End Found.

(** ** The result of a search *)
Definition finds (d : doc) (o : Domains.outcome) (r : res (option nat * nat * nat)) : Prop :=
  match o with
  | Domains.Nowhere => exists e, r = Err e
  | Domains.Stray v => exists A B ks, text d = A ++ render v ++ B /\ wf v = true /\ terminated B /\ noq A /\
      r = Ok (ks, (length A + qoff v)%nat, (length A + qoff v + length (bare v))%nat)
  | Domains.Unclear => True
  end.

Lemma wants_finds d x o r : wants d x false o r -> finds d o r.
Proof.
  destruct o; cbn; [intros ->; eexists; reflexivity| |trivial].
  intros (A & B & ks & H1 & H2 & H3 & H4 & H5). exists A, B, (Some ks). repeat split; assumption.
Qed.

(** In a container, the rest of the path. *)
Lemma into_finds d q x p r pre c post : wf c = true -> p <> [] ->
  AtC (text d) (q ++ x :: p) r (S (length q)) pre c post -> finds d (Domains.into c p) (bind r (finish (text d))).
Proof.
  intros Hw Hp Hat. unfold Domains.into. destruct (lookup c p) as [v|] eqn:El.
  - apply lookup_focus in El. destruct El as (pre' & post' & Hf).
    destruct (AtC_value _ _ _ _ _ _ _ p pre' v post' Hw Hat Hp) as (ks & E & Hj); [rewrite app_length; cbn [length]; lia| |exact Hf|].
    { intros j Hj. rewrite app_nth2 by lia. replace (S (length q) + j - length q)%nat with (S j) by lia. reflexivity. }
    destruct (focus_ends _ _ _ _ _ Hf Hw Hp) as [N1 N2].
    exists (pre ++ pre'), (post' ++ post), ks. split; [exact Hj|]. split; [eapply focus_wf; eassumption|]. split; [apply N2|]. split; [apply N1|exact E].
  - destruct c as [s|s|w els|w ms]; try exact I. destruct p as [|y p]; [congruence|].
    destruct (Domains.bad_step els y) eqn:Eb; [|exact I]. cbn [finds].
    eapply AtC_bad_step; try eassumption; [rewrite app_length; cbn [length]; lia|].
    rewrite app_nth2 by lia. replace (S (length q) - length q)%nat with 1%nat by lia. exact Eb.
Qed.

(** The search right after the colon of the member. *)
Lemma below_start d q y rest w l1 m l2 pre post :
  wf_doc d = true -> focus (d_val d) q pre (JObj w (l1 ++ m :: l2)) post -> nokey (m_key m) l1 ->
  let path := q ++ m_key m :: y :: rest in let k := length q in let Q := post ++ d_post d in
  exists p s e o br, key_match (text d) (m_key m) s e = true /\ nobs p /\ br <> 91 /\ marks (text d) s e /\
    text d = p ++ mem_tail m ++ jpost (map mem_text l2) ++ 125 :: Q /\
    core (text d) false path = bind (bind (key_loop (text d) path (mem_tail m ++ jpost (map mem_text l2) ++ 125 :: Q) (length p) 0 k (S k)
      true false s e (CSt o br (m_key m) None)) (fun '(k', st') => OUT (text d) path (S k') st')) (finish (text d)).
Proof.
  intros Hw Hf Hnk path k Q.
  destruct (core_reach d q (m_key m) (y :: rest) pre _ post Hw Hf eq_refl) as (r & Hat & Hcore). specialize (Hcore false). cbv iota in Hcore.
  fold path in Hcore. rewrite Hcore. clear Hcore.
  assert (Hwc : wf (JObj w (l1 ++ m :: l2)) = true).
  { eapply focus_wf; [exact Hf|]. unfold wf_doc in Hw. nbool. assumption. }
  destruct Hat as [Hj (s & e & o & br & Hbr & Hmk & Hr)].
  rewrite wf_obj, forallb_app in Hwc. cbn [forallb] in Hwc. nbool.
  assert (Hx : nth k path [] = m_key m) by apply nth_app_at.
  assert (Hlen : (S k < length path)%nat) by (unfold path, k; rewrite app_length; cbn [length]; lia).
  set (P := d_pre d ++ pre) in *. fold Q in Hj, Hr. fold path k in Hmk, Hr.
  assert (Hj' : text d = (P ++ obj_pre w l1 m) ++ render (m_val m) ++ obj_post m l2 ++ Q).
  { rewrite Hj, render_obj_split. same_text. }
  unshelve epose proof (key_found (text d) path (P ++ [123]) w l1 m (mem_tail m ++ jpost (map mem_text l2) ++ 125 :: Q)
              k (CSt o br (nth k path []) None) s e _ _ _ _ _ _ _) as E1.
  { assumption. } { assumption. } { assumption. } { apply nobs_snoc. discriminate. }
  { rewrite Hj'. unfold obj_pre, obj_kpre, obj_mid, obj_post, mem_head, mem_tail. same_text. }
  { assumption. } { cbn [cur]. exact Hx. }
  cbv zeta in E1. rewrite length_snoc in E1.
  replace (S k =? length path)%nat with false in E1 by (symmetry; apply Nat.eqb_neq; lia).
  cbn [cur brace keyst] in E1. rewrite Hx in E1, Hr.
  assert (Hr2 : r = RK (text d) path (w ++ jpre (map mem_text l1) ++ mem_head m ++ 58 :: mem_tail m ++ jpost (map mem_text l2) ++ 125 :: Q)
       (S (length P)) k (S k) false false s e (CSt o br (m_key m) None)).
  { rewrite Hr. f_equal. rewrite map_app. cbn [map]. rewrite join_split, mem_text_split. same_text. }
  unfold RK in Hr2. rewrite E1 in Hr2. clear E1 Hr.
  set (p := (P ++ [123]) ++ w ++ jpre (map mem_text l1)) in *.
  assert (Hjp : text d = (p ++ mem_head m) ++ 58 :: mem_tail m ++ jpost (map mem_text l2) ++ 125 :: Q).
  { rewrite Hj'. unfold p, obj_pre, obj_kpre, obj_mid, obj_post, mem_head, mem_tail. same_text. }
  exists ((p ++ mem_head m) ++ [58]). do 4 eexists. split; [|split; [apply nobs_snoc; discriminate|split; [|split; [|split; [rewrite Hjp; same_text|]]]]].
  4:{ rewrite Hr2. rewrite length_snoc. reflexivity. }
  - unfold key_match. apply andb_true_iff. split; [apply Nat.eqb_eq; len|].
    rewrite Hjp. unfold mem_head.
    replace ((p ++ m_pre m ++ 34 :: m_key m ++ 34 :: m_mid m) ++ 58 :: mem_tail m ++ jpost (map mem_text l2) ++ 125 :: Q)
      with ((p ++ m_pre m ++ [34]) ++ m_key m ++ 34 :: m_mid m ++ 58 :: mem_tail m ++ jpost (map mem_text l2) ++ 125 :: Q) by same_text.
    rewrite skipn_length_app, firstn_length_app. apply bytes_eqb_refl.
  - exact Hbr.
  - split; right; [exists (length (p ++ m_pre m)); split; [len|]|].
    + rewrite Hjp. unfold mem_head. eapply nth_error_app_eq; [|reflexivity]. same_text.
    + rewrite Hjp. unfold mem_head. eapply nth_error_app_eq; [|reflexivity]. same_text.
Qed.

Lemma no_open_app s t : no_open s = true -> no_open t = true -> no_open (s ++ t) = true.
Proof. unfold no_open. intros H1 H2. rewrite forallb_app, H1. exact H2. Qed.

Lemma no_open_brace s : no_brace s = true -> no_open s = true.
Proof.
  unfold no_brace, no_open. rewrite !forallb_forall. intros H c Hc. apply H in Hc. cbv beta in Hc. apply andb_true_iff in Hc. tauto.
Qed.

Lemma next_value v r o : container v = false -> wf v = true -> Domains.next_container (([], v) :: r) = Some o ->
  no_brace (render v) = true /\ Domains.next_container r = Some o.
Proof.
  intros Hc Hw H. destruct v as [s|s|w els|w ms]; try discriminate Hc; cbn [Domains.next_container] in H.
  - split; [apply no_brace_scalar; exact Hw|exact H].
  - change (Domains.no_brace []) with true in H. cbv iota in H. destruct (Domains.no_brace s) eqn:Es; [|discriminate]. split; [|exact H]. cbn [render].
    change (34 :: s ++ [34]) with ([34] ++ s ++ [34]). rewrite !no_brace_app. rewrite (Es : no_brace s = true). reflexivity.
Qed.

Theorem core_below_at d q x p v w ms :
  wf_doc d = true -> lookup (d_val d) q = Some (JObj w ms) -> lookup (d_val d) (q ++ [x]) = Some v -> container v = false -> p <> [] ->
  finds d (Domains.below_at (d_val d) q x p) (core (text d) false (q ++ x :: p)).
Proof.
  intros Hw Hl Hlx Hc Hp. destruct p as [|y rest]; [congruence|]. unfold Domains.below_at. rewrite Hlx.
  destruct (Domains.next_container (([], v) :: Domains.followers (d_val d) q x)) as [o1|] eqn:En; [|exact I].
  destruct (lookup_focus _ _ _ Hlx) as (prex & postx & Hfx). apply focus_split in Hfx.
  destruct Hfx as (pre & u & post & pre2 & post2 & Hf & Hf2 & -> & ->).
  pose proof (focus_lookup _ _ _ _ _ Hf) as E. rewrite Hl in E. injection E as <-.
  inversion Hf2; subst. match goal with H : focus _ [] _ _ _ |- _ => inversion H; subst end.
  assert (Hwc : wf (JObj w (l1 ++ m :: l2)) = true) by (eapply focus_wf; [exact Hf|unfold wf_doc in Hw; nbool; assumption]).
  rewrite wf_obj, forallb_app in Hwc. cbn [forallb] in Hwc. nbool. rename H1 into Hokm, H2 into Hok2. pose proof Hokm as Hokm'. unfold mem_ok in Hokm'. nbool.
  rewrite (followers_obj _ _ _ _ _ _ _ _ Hf) in En by assumption.
  destruct (next_value _ _ _ Hc ltac:(assumption) En) as [Hbv En1]. clear En.
  destruct (below_start d q y rest w l1 m l2 pre post Hw Hf) as (p & s & e & o & br & Hm & Hnp & Hbr & Hmk & Hj & Hcore); [assumption|].
  cbv zeta in Hcore. set (path := q ++ m_key m :: y :: rest) in *. set (k := length q) in *. set (Q := post ++ d_post d) in *.
  assert (Hlen : (S (S k) <= length path)%nat) by (unfold path, k; rewrite app_length; cbn [length]; lia).
  assert (Hbt : no_brace (mem_tail m) = true).
  { unfold mem_tail. rewrite !no_brace_app, !andb_true_iff. repeat split; try exact Hbv; apply no_brace_ws; assumption. }
  assert (Hsib : Forall (sib_ok (text d) k) (obj_sibs l2)) by (apply obj_sibs_ok; assumption).
  destruct o1 as [c|].
  - (* a member that follows *)
    rewrite Hcore. clear Hcore.
    destruct (next_some (text d) k _ _ Hsib En1) as (A & t & B & EA & HA & Hwc' & Hcc & Ht & HnA & _).
    rewrite obj_sibs_text in EA. rewrite EA in *.
    replace (mem_tail m ++ (A ++ render c ++ t ++ jpost (map sib_text B)) ++ 125 :: Q)
      with ((mem_tail m ++ A) ++ render c ++ t ++ jpost (map sib_text B) ++ 125 :: Q) in * by same_text.
    destruct (key_flat (text d) path k s e (m_key m) Hm Hlen (mem_tail m ++ A)) with (rest := render c ++ t ++ jpost (map sib_text B) ++ 125 :: Q)
      (i := length p) (lv := S k) (o := o) (br := br) as (o' & Eo); [rewrite no_brace_app, Hbt; exact HA|]. rewrite Eo. clear Eo.
    rewrite <- app_length. eapply into_finds; [exact Hwc'|discriminate|].
    destruct c as [sc|sc|w' els|w' ms']; try discriminate Hcc.
    + eapply key_enter_arr; [exact Hlen|]. rewrite Hj at 1. same_text.
    + split; [rewrite Hj at 1; same_text|]. exists s, e, o', br. split; [exact Hbr|]. split; [exact Hmk|].
      rewrite key_enter_obj by exact Hlen. reflexivity.
  - (* to the end of the object *)
    pose proof (next_none (text d) k _ Hsib En1) as Hb2. rewrite obj_sibs_text in Hb2.
    assert (Hb3 : no_brace (mem_tail m ++ jpost (map mem_text l2)) = true) by (rewrite no_brace_app, Hbt; exact Hb2).
    destruct (rev q) as [|i rq] eqn:Erq.
    { assert (q = []) as -> by (rewrite <- (rev_involutive q), Erq; reflexivity). inversion Hf; subst. eexists.
      eapply core_below_member; [exact Hw|exact Hf|assumption|]. cbn [app]. unfold wf_doc in Hw. nbool. apply no_open_app; [apply no_open_brace; exact Hbv|].
      unfold obj_post. rewrite <- !app_assoc. apply no_open_app; [apply no_open_brace, no_brace_ws; assumption|].
      apply no_open_app; [apply no_open_brace; exact Hb2|]. apply (no_open_app [125]); [reflexivity|]. apply no_open_brace, no_brace_ws; assumption. }
    assert (Eq : q = rev rq ++ [i]) by (rewrite <- (rev_involutive q), Erq; reflexivity).
    destruct (followers_split d (rev rq) i pre _ post Hw ltac:(rewrite <- Eq; exact Hf)) as (l & t & c & tail & EQ & Ht & Hcl & Hl' & Efol).
    rewrite Efol. rewrite Hcore. clear Hcore. fold Q in EQ.
    replace (mem_tail m ++ jpost (map mem_text l2) ++ 125 :: Q) with ((mem_tail m ++ jpost (map mem_text l2)) ++ 125 :: Q) in * by same_text.
    set (flat := mem_tail m ++ jpost (map mem_text l2)) in *.
    destruct (key_flat (text d) path k s e (m_key m) Hm Hlen flat Hb3 (125 :: Q) (length p) (S k) o br) as (o1 & Eo). rewrite Eo. clear Eo.
    rewrite <- app_length. set (p1 := p ++ flat) in *.
    cbn [key_loop]. change (length p1 <? 0)%nat with false. change (125 =? 34) with false. change (125 =? 58) with false. rewrite andb_false_r.
    change (125 =? 91) with false. change (125 =? 123) with false. change (is_close 125) with true. cbv iota. rewrite Nat.ltb_irrefl. cbn [pred].
    rewrite <- (length_snoc p1 125). set (p2 := p1 ++ [125]) in *.
    assert (Hj2 : text d = p2 ++ Q) by (rewrite Hj; unfold p2, p1; same_text).
    destruct (Domains.next_container (map sib_item l)) as [[c'|]|] eqn:En2; [| |exact I].
    + destruct (next_some (text d) k _ _ (Hl' k) En2) as (A & t' & B & EA & HA & Hwc' & Hcc & Ht' & HnA & _).
      rewrite EA in EQ.
      replace (t ++ (A ++ render c' ++ t' ++ jpost (map sib_text B)) ++ c :: tail)
        with ((t ++ A) ++ render c' ++ t' ++ jpost (map sib_text B) ++ c :: tail) in EQ by same_text.
      set (Q' := t' ++ jpost (map sib_text B) ++ c :: tail) in *. rewrite EQ in *. clear EQ.
      destruct (key_flat (text d) path k s e (m_key m) Hm Hlen (t ++ A)) with (rest := render c' ++ Q')
        (i := length p2) (lv := k) (o := o1) (br := br) as (o2 & Eo); [rewrite no_brace_app, no_brace_ws by exact Ht; exact HA|]. rewrite Eo. clear Eo.
      rewrite <- app_length. set (p3 := p2 ++ t ++ A) in *.
      assert (Hj3 : text d = p3 ++ render c' ++ Q') by (rewrite Hj2; unfold p3; same_text).
      destruct c' as [sc|sc|w' els|w' ms']; try discriminate Hcc.
      * eapply into_finds; [exact Hwc'|discriminate|]. eapply key_enter_arr; [exact Hlen|exact Hj3].
      * rewrite key_enter_obj by exact Hlen.
        assert (Hny : nth (S k) path [] = y).
        { unfold path, k. rewrite app_nth2 by lia. replace (S (length q) - length q)%nat with 1%nat by lia. reflexivity. }
        rewrite Hny. set (st := CSt o2 br y None).
        rewrite wf_obj in Hwc'. nbool. rewrite key_ws by assumption. rewrite <- (length_snoc p3 123), <- app_length.
        set (p4 := (p3 ++ [123]) ++ w').
        assert (Hj4 : text d = p4 ++ join (map mem_text ms') ++ 125 :: Q') by (rewrite Hj3, render_obj; unfold p4; same_text).
        assert (Hn4 : nobs p4) by (unfold p4; apply nobs_ws; [apply nobs_snoc; discriminate|assumption]).
        set (o3 := Domains.stray false y (map (fun m => (m_key m, m_val m)) ms')).
        match goal with |- finds _ _ (bind (bind ?z _) _) => assert (E : ends (text d) path (S k) st o3 z) end.
        { destruct ms' as [|m' ms'].
          - cbn [map join app o3]. unfold o3. cbn [map Domains.stray ends]. apply (fail_end (text d) path (S k) st [] p4 125 Q'); [reflexivity|reflexivity|lia].
          - cbn [forallb] in *. nbool.
            assert (Hs' : Forall (sib_ok (text d) (S k)) (obj_sibs ms')) by (apply obj_sibs_ok; assumption).
            assert (Hs0 : Forall (sib_ok (text d) (S k)) (obj_sibs [m'])) by (apply obj_sibs_ok; cbn [forallb]; rewrite andb_true_r; assumption).
            inversion Hs0 as [|? ? Hm0 _]. clear Hs0.
            destruct (siblings (text d) path (S k) st _ Hs') as [HA' HJ'].
            unfold o3. rewrite <- obj_sibs_item. cbn [map]. rewrite join_cons.
            replace ((mem_text m' ++ jpost (map mem_text ms')) ++ 125 :: Q')
              with ((m_pre m' ++ 34 :: m_key m' ++ obj_mid m') ++ render (m_val m') ++ m_post m' ++ jpost (map sib_text (obj_sibs ms')) ++ 125 :: Q').
            2:{ rewrite obj_sibs_text. unfold mem_text, obj_mid. same_text. }
            apply (find_item (text d) path (S k) st (m_key m') (m_pre m' ++ 34 :: m_key m' ++ obj_mid m') (m_val m') (m_post m') (obj_sibs ms') HA' HJ' Hm0);
              [reflexivity|exact Hn4|].
            rewrite Hj4. cbn [map]. rewrite join_cons, obj_sibs_text. unfold mem_text, obj_mid. same_text. }
        fold o3. destruct rest as [|z rest].
        -- match goal with |- finds _ ?o' _ => replace o' with o3 by (destruct o3; reflexivity) end.
           apply (wants_finds d y). apply (ends_finish d path (S k) st y false o3 _ eq_refl); [|exact E].
           right. unfold path, k. rewrite app_length. cbn [length]. lia.
        -- destruct o3 eqn:Eo3; [|exact I|exact I].
           apply (wants_finds d y). apply (ends_finish d path (S k) st y false Domains.Nowhere _ eq_refl); [left; reflexivity|exact E].
    + pose proof (next_none (text d) k _ (Hl' k) En2) as Hb4.
      replace (t ++ jpost (map sib_text l) ++ c :: tail) with ((t ++ jpost (map sib_text l)) ++ c :: tail) in EQ by same_text. rewrite EQ in *.
      destruct (key_flat (text d) path k s e (m_key m) Hm Hlen (t ++ jpost (map sib_text l))) with (rest := c :: tail)
        (i := length p2) (lv := k) (o := o1) (br := br) as (o2 & Eo); [rewrite no_brace_app, no_brace_ws by exact Ht; exact Hb4|]. rewrite Eo. clear Eo.
      exists (EKeyNotFound (m_key m)). cbn [key_loop]. match goal with |- context [(?z <? 0)%nat] => change (z <? 0)%nat with false end.
      assert (Elt : (k <? S k)%nat = true) by (apply Nat.ltb_lt; lia).
      apply close_cases in Hcl. destruct Hcl; subst c; cbn -[Nat.ltb Nat.eqb]; rewrite andb_false_r, Elt; reflexivity.
Qed.
