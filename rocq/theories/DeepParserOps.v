(** A Parser of a document made of nested Go maps and slices changes as the value does (C83). *)
From Coq Require Import String Lia.
From Verif Require Import GoStd Json Spec SpecProofs SpecFlat Focus Domains Core Skip Errors Api Updates Parse Ops History SpecParser Parser ParserProofs SpecParserOps ParserGet ParserUpd ParserOps ParserInsert ParserRefuse
  Typed TypedProofs SpecTyped Make Flat SpecMade Made MadeParser SpecDeep Deep DeepParser SpecDeepParser GoLang AsWritten AsWrittenProofs SpecDeepGo DeepGo SpecRefuse DeepTotal SpecDeepJO.
From Verif Require Pointers ParserGo ParserTypedGo ParserTypedGoProofs ParserGoWritten TypedGoProofs.

Local Open Scope N_scope.

Lemma cont_simple pf v : good pf v -> (exists s, v = MStr s) -> leaf (tree (cont pf v)) = true /\ hollow (tree (cont pf v)) = true.
Proof. intros H (s & ->). exact (tok_leaf pf s H). Qed.
Lemma map_split pf ps k u : NoDup (map fst ps) -> assoc k ps = Some u ->
  exists l1 m l2, tree (cont pf (MMap ps)) = JObj [] (l1 ++ m :: l2) /\ m_key m = k /\ nokey k l1 /\ nokey k l2.
Proof.
  intros Hn Ha. assert (Hi : In (k, u) ps).
  { clear Hn. induction ps as [|[k' v] ps IH]; [discriminate|]. cbn [assoc] in Ha. destruct (bytes_eqb k' k) eqn:E; [apply bytes_eqb_eq in E; injection Ha as <-; subst; left; reflexivity|right; auto]. }
  destruct (in_split _ _ Hi) as (a & c & ->). rewrite map_app in Hn. cbn [map fst] in Hn. apply NoDup_remove_2 in Hn. rewrite in_app_iff in Hn.
  exists (map (fun m => Mem [] (fst m) [] [] (tree (snd m)) []) (mv (cont pf) a)). eexists. exists (map (fun m => Mem [] (fst m) [] [] (tree (snd m)) []) (mv (cont pf) c)).
  split; [rewrite cont_map, mv_app; cbn [tree]; rewrite map_app; reflexivity|]. split; [reflexivity|]. split; apply nokey_tree; rewrite mv_fst; tauto.
Qed.
Lemma deep_p_legal pf m c m' : good pf m -> filled m -> mcmd_ok pf m c -> p_mcmd_ok m c -> m_effect c m = Some m' -> p_legal (plain (cont pf m)) (op_of pf c).
Proof.
  intros H Hf Hc Hp He.
  assert (L : forall p u, m_at m p = Some u -> lookup (d_val (plain (cont pf m))) p = Some (tree (cont pf u))) by (intros p u Hu; apply flat_lookup; rewrite cont_at, Hu by exact H; reflexivity).
  assert (S : forall p u, m_at m p = Some u -> m_straight m p -> straight (d_val (plain (cont pf m))) p = true) by (intros p u; apply cont_straight, H).
  assert (R : (m <> MMap [] /\ m <> MList []) -> root_ready (plain (cont pf m))).
  { intros [R1 R2]. split; [reflexivity|]. split; [reflexivity|]. destruct m as [s|[|x ps]|[|x ms]]; [contradiction|congruence|reflexivity|congruence|reflexivity]. }
  destruct c as [p v|p x|p k v|p k v|p x k|p v|p i v]; cbn [op_of mcmd_ok p_mcmd_ok m_effect p_legal] in *; try contradiction.
  - destruct Hc as [Hq Hv]. destruct Hp as (Hs & Ht & Ho). split; [apply cont_simple; assumption|]. destruct (change_at _ _ _ _ He) as (u & Hu & _). split; [eapply S; eassumption|].
    exists (tree (cont pf u)). split; [apply L, Hu|]. destruct Ho as [Ho|[Ho|(s & Ho)]]; rewrite Ho in Hu; injection Hu as <-; try reflexivity. apply (cont_simple pf (MStr s)); [|eauto]. exact (good_at pf p m _ H Ho).
  - destruct Hp as (Ht & Ho). destruct (change_at _ _ _ _ He) as (u & Hu & Hn).
    assert (Hx : exists w, m_at m (p ++ [x]) = Some w).
    { rewrite m_at_app, Hu. cbn [m_at]. destruct u as [s|ps|ms]; cbn [m_remove m_child] in *; [congruence|destruct (assoc x ps); [eauto|congruence]|]. destruct (atoi x); [|congruence]. destruct (nth_z ms z); [eauto|congruence]. }
    destruct Hx as (w & Hx). split; [eapply S; eassumption|]. destruct Ho as [(ps & Ho & Hd)|(ms & y & Ho & Ha)]; rewrite Ho in Hu; injection Hu as <-.
    + left. cbn [m_remove] in Hn. destruct (assoc x ps) as [y|] eqn:Ey; [|congruence]. destruct (map_split pf ps x y Hd Ey) as (l1 & e & l2 & E & H1 & H2 & H3). exists [], l1, e, l2. split; [rewrite (L _ _ Ho), E; reflexivity|auto].
    + right. exists [], (map (fun c => Elem [] (tree (cont pf c)) []) ms), (Elem [] (tree (cont pf y)) []). rewrite (L _ _ Ho). cbn [cont tree]. rewrite map_map, map_app. split; [reflexivity|]. rewrite map_length. exact Ha.
  - destruct Hc as (Hk & Hv & Hnew). destruct Hp as (Hs & Ht & Hr & Hl). split; [apply cont_simple; assumption|]. destruct (change_at _ _ _ _ He) as (u & Hu & Hn). split; [eapply S; eassumption|].
    split; [apply Hnew|]. split; [intro Hq; apply R, Hr, Hq|]. intros q0 x w Hq Hw. subst p. rewrite m_at_app in Hu. destruct (m_at m q0) as [y|] eqn:Ey; [|discriminate].
    rewrite (L _ _ Ey) in Hw. injection Hw as <-. specialize (Hl q0 x y eq_refl Ey). destruct y as [s|ps|ms]; cbn [m_label_free] in Hl.
    + pose proof (good_at pf q0 m _ H Ey) as G. cbn [cont]. destruct (tok_simple pf s G) as [(-> & _)|(-> & _)]; exact I.
    + rewrite cont_map. cbn [tree label_free]. apply nokey_tree. rewrite mv_fst. exact Hl.
    + cbn [cont tree label_free]. rewrite !map_length. exact Hl.
  - destruct Hp as (Ht & Hd). destruct (change_at _ _ _ _ He) as (u & Hu & Hn). destruct u as [s|ps|ms]; [congruence| |congruence]. specialize (Hd ps Hu).
    destruct (assoc k ps) as [y'|] eqn:Ek; [congruence|]. destruct (assoc x ps) as [y|] eqn:Ey; [|congruence].
    split; [eapply S; [|exact Ht]; rewrite m_at_app, Hu; cbn [m_at m_child]; rewrite Ey; reflexivity|].
    destruct (map_split pf ps x y Hd Ey) as (l1 & e & l2 & E & H1 & H2 & H3). exists [], l1, e, l2. split; [rewrite (L _ _ Hu), E; reflexivity|auto].
  - destruct Hp as (Hs & Ht & Hr & Hl). split; [apply cont_simple; assumption|]. destruct (change_at _ _ _ _ He) as (u & Hu & Hn). split; [eapply S; eassumption|].
    split; [intro Hq; apply R, Hr, Hq|]. destruct u as [s|ps|ms]; [congruence|congruence|]. rewrite (L _ _ Hu). cbn [cont tree]. rewrite map_map. eexists. eexists. split; [reflexivity|].
    destruct ms as [|y [|y' ms]]; [reflexivity| |reflexivity]. destruct y as [s|ps|ms]; [contradiction (Hl s)|reflexivity|reflexivity].
Qed.
Lemma do_p_op pf c p m m' : mcmd_ok pf m c -> p_mcmd_ok m c -> m_effect c m = Some m' -> do_p_mcmd pf c p = p_call (op_of pf c) p.
Proof.
  intros Hc Hp _.
  assert (V : forall v, good pf v -> formatType pf (make pf v) = render (tree (cont pf v))) by (intros v Hv; destruct (cont_ok pf v Hv) as (_ & E & _); symmetry; exact E).
  destruct c as [q v|q x|q k v|q k v|q x k|q v|q i v]; cbn [do_p_mcmd op_of p_call mcmd_ok p_mcmd_ok] in *; try contradiction; try reflexivity.
  - rewrite V by apply Hc. reflexivity.
  - unfold P_AddKeyValueString. destruct k; [destruct Hc as (_ & _ & Hk & _); contradiction Hk; reflexivity|]. rewrite V by apply Hc. reflexivity.
  - unfold P_AddString. rewrite V by exact Hc. reflexivity.
Qed.
Lemma stands_shows pf m p : good pf m -> filled m -> fits (make pf m) -> stands p (cont pf m) ->
  P_JSON p = make pf m /\ (forall q x, q <> [] -> m_at m q = Some x -> m_straight m q -> P_Get p q = Ok (make pf x)) /\
  (forall q t, P_Get p q = Ok t -> exists x, m_at m q = Some x /\ (q <> [] -> t = make pf x)).
Proof.
  intros G F Hz Hp. pose proof (make_text pf m G F) as E. destruct (holds_answers _ _ _ Hp) as (A1 & A2 & A3 & _). rewrite <- E in A1, A3. split; [exact A1|]. split.
  - intros q x Hq Ha Hs. destruct (A2 q (tree (cont pf x))) as [G1 _]; [apply flat_lookup; rewrite cont_at, Ha by exact G; reflexivity|exact Hq|eapply cont_straight; eassumption|].
    rewrite G1, bare_shown. f_equal. apply cont_ok. eapply good_at; eassumption.
  - intros q t Hg'. destruct (A3 q t Hz Hg') as [L Gt].
    destruct (m_at m q) as [x|] eqn:Ha.
    + exists x. split; [reflexivity|]. intro Hq. destruct (deep_reads pf m q x G F Ha) as [R1 _]. rewrite (R1 Hq) in Gt. injection Gt as <-. reflexivity.
    + exfalso. pose proof (cont_at pf q m G) as Z. rewrite Ha in Z. cbn [option_map] in Z. rewrite <- (content_tree (cont pf m)), lookup_content in Z. cbn [plain d_val] in L. destruct (lookup _ q); [discriminate Z|congruence].
Qed.
Theorem deep_parser_history pf cs m m' : good pf m -> filled m -> p_m_goes pf cs m m' ->
  exists p p', Parse (make pf m) = Ok p /\ p_run_mcmds pf cs p = Some p' /\ P_JSON p' = make pf m' /\
    (forall q x, q <> [] -> m_at m' q = Some x -> m_straight m' q -> P_Get p' q = Ok (make pf x)) /\
    (fits (make pf m') -> forall q t, P_Get p' q = Ok t -> exists x, m_at m' q = Some x /\ (q <> [] -> t = make pf x)).
Proof.
  intros H Hf Hg. destruct (cont_ok pf m H) as (W & _). pose proof (make_text pf m H Hf) as E.
  assert (C : container (d_val (plain (cont pf m))) = true) by (destruct m; [contradiction|reflexivity|reflexivity]).
  destruct (parse_holds (plain (cont pf m)) (plain_wf _ W) C) as (p & Ep & Hp). rewrite <- E in Ep. exists p.
  assert (HH : exists p', p_run_mcmds pf cs p = Some p' /\ stands p' (cont pf m') /\ good pf m' /\ filled m').
  { apply (weaken_holds counted counted1 counted_weak) in Hp. fold (stands p (cont pf m)) in Hp. clear Ep E C W. revert m p H Hf Hg Hp.
    induction cs as [|c cs IH]; intros m p H Hf Hg Hp; cbn [p_m_goes p_run_mcmds] in *; [subst; exists p; auto|]. destruct Hg as (H1 & H2 & m1 & H3 & H4).
    destruct (deep_call pf m c m1 H Hf H1 H3) as (_ & G & F). destruct (deep_legal pf m c m1 H Hf H1 H3) as (L1 & L2 & _). destruct (cont_ok pf m H) as (W & _).
    destruct (effect_alike pf m c H1 H) as [E1 _]. rewrite H3 in E1. cbn [option_map] in E1.
    destruct (stands_follows p (cont pf m) (op_of pf c) (cont pf m1) Hp W L1 L2 (deep_p_legal pf m c m1 H Hf H1 H2 H3) E1) as (p1 & E2 & Hp1).
    rewrite (do_p_op pf c p m m1 H1 H2 H3), E2. exact (IH m1 p1 G F H4 Hp1). }
  destruct HH as (p' & R & Hp' & G & F). exists p'. split; [exact Ep|]. split; [exact R|]. pose proof (make_text pf m' G F) as E'. 
  destruct (holds_answers _ _ _ Hp') as (A1 & A2 & A3 & _). rewrite <- E' in A1, A3. split; [exact A1|]. split.
  - intros q x Hq Ha Hs. destruct (A2 q (tree (cont pf x))) as [G1 _]; [apply flat_lookup; rewrite cont_at, Ha by exact G; reflexivity|exact Hq|eapply cont_straight; eassumption|].
    rewrite G1, bare_shown. f_equal. apply cont_ok. eapply good_at; eassumption.
  - intros Hz q t Hg'. destruct (A3 q t Hz Hg') as [L _].
    destruct (m_at m' q) as [x|] eqn:Ha.
    + exists x. split; [reflexivity|]. intro Hq. destruct (A3 q t Hz Hg') as [_ Gt]. destruct (deep_reads pf m' q x G F Ha) as [R1 _]. rewrite (R1 Hq) in Gt. injection Gt as <-. reflexivity.
    + exfalso. pose proof (cont_at pf q m' G) as Z. rewrite Ha in Z. cbn [option_map] in Z. rewrite <- (content_tree (cont pf m')), lookup_content in Z. cbn [plain d_val] in L. destruct (lookup _ q); [discriminate Z|congruence].
Qed.

(** As written in Go *)
Lemma run_tcmds pf cs : forall p p', p_run_mcmds pf cs p = Some p' -> ParserTypedGo.t_calls pf (flat_map (tcmd pf) cs) p = Some (p', repeat None (length cs)).
Proof.
  induction cs as [|c cs IH]; intros p p' H; cbn [p_run_mcmds flat_map] in *; [injection H as <-; reflexivity|]. destruct (do_p_mcmd pf c p) as [p1 [e|]|] eqn:E; try discriminate. apply IH in H.
  destruct c; cbn [tcmd do_p_mcmd app ParserTypedGo.t_calls ParserTypedGo.t_do Pointers.p_do repeat length] in *; try (rewrite E; cbv iota; rewrite H; reflexivity). discriminate.
Qed.
Lemma tcmd_octets pf cs : Forall mcmd_octets cs -> Forall ParserTypedGo.tcall_octets (flat_map (tcmd pf) cs).
Proof.
  induction 1 as [|c cs Hc Hr IH]; [constructor|]. apply Forall_app. split; [|exact IH].
  destruct c; cbn [tcmd mcmd_octets] in *; repeat constructor; cbn [ParserTypedGo.tcall_octets pcall_octets]; try exact Hc; try (apply TypedGoProofs.octets_format); try (apply octets_make); try exact Hc; apply Hc.
Qed.
Theorem deep_parser_history_written pf cs m m' : good pf m -> filled m -> m_octets m -> Forall mcmd_octets cs -> p_m_goes pf cs m m' ->
  exists p p', eventually (fun fuel => ParserGo.Parse_go (ParserGo.as_written fuel) (make pf m) = Ret (Some p, None)) /\
    eventually (fun fuel => ParserTypedGo.calls_t (ParserGo.as_written fuel) pf (flat_map (tcmd pf) cs) p = Ret (p', repeat None (length cs))) /\ Pointers.q_json p' = make pf m' /\
    forall q x, q <> [] -> m_at m' q = Some x -> m_straight m' q -> eventually (fun fuel => ParserGo.Get_p (ParserGo.as_written fuel) p' q = Ret (make pf x, None)).
Proof.
  intros H Hf Ho Hc Hg. destruct (deep_parser_history pf cs m m' H Hf Hg) as (p & p' & E1 & E2 & E3 & E4 & _).
  pose proof (ParserTypedGoProofs.typed_history_written pf (make pf m) (flat_map (tcmd pf) cs) (octets_make pf m Ho) (tcmd_octets pf cs Hc)) as W. rewrite E1 in W.
  destruct W as (r & Hr & W). rewrite (run_tcmds pf cs p p' E2) in W. destruct W as (r' & Hr' & Hj & Hget). exists r, r'. split; [exact Hr|]. split; [exact Hr'|]. split; [rewrite Hj; exact E3|].
  intros q x Hq Ha Hs. refine (ParserGoWritten.eventually_map _ _ _ (ParserGoWritten.Get_written r' q)). intros fuel ->. rewrite Hget, (E4 q x Hq Ha Hs). reflexivity.
Qed.

(** Calls that do not apply *)
Lemma keys_in pf ps k y : assoc k ps = Some y -> In k (map (fun m => fst m) (mv (cont pf) ps)).
Proof.
  intro H. change (In k (map fst (mv (cont pf) ps))). rewrite mv_fst. induction ps as [|[k' v] ps IH]; [discriminate|]. cbn [assoc map fst] in *. destruct (bytes_eqb k' k) eqn:E; [apply bytes_eqb_eq in E; left; exact E|right; apply IH, H].
Qed.
Lemma deep_p_refused pf m c p : good pf m -> filled m -> fits (make pf m) -> m_effect c m = None -> p_m_calm pf m c -> stands p (cont pf m) -> exists e, do_p_mcmd pf c p = PRet p (Some e).
Proof.
  intros H Hf Hz He Hc Hp. rewrite (make_text pf m H Hf) in Hz. pose proof (holds_refuses p _ Hp) as (RM & RT & RK & _).
  assert (L : forall q u, m_at m q = Some u -> lookup (d_val (plain (cont pf m))) q = Some (tree (cont pf u))) by (intros q u Hu; apply flat_lookup; rewrite cont_at, Hu by exact H; reflexivity).
  assert (S : forall q u, m_at m q = Some u -> m_straight m q -> straight (d_val (plain (cont pf m))) q = true) by (intros q u; apply cont_straight, H).
  assert (Z : forall q, m_at m q = None -> lookup (d_val (plain (cont pf m))) q = None).
  { intros q Hq. pose proof (cont_at pf q m H) as D. rewrite Hq in D. cbn [option_map] in D. rewrite <- (content_tree (cont pf m)), lookup_content in D. cbn [plain d_val]. destruct (lookup _ q); [discriminate D|reflexivity]. }
  assert (G : forall v, good pf v -> formatType pf (make pf v) <> []).
  { intros v Hv. destruct (cont_ok pf v Hv) as (W & E & _). intro E0. rewrite <- E in E0. destruct (render_cons (tree (cont pf v)) W) as (x & t & Er & _). unfold flat in E0. congruence. }
  assert (C : forall u, (exists q, m_at m q = Some u) -> match u with MList _ => True | _ => not_array (tree (cont pf u)) = true end /\ match u with MMap _ => True | _ => not_object (tree (cont pf u)) = true end).
  { intros [s|ps|ms] (q & Hq); [|split; [reflexivity|exact I]|split; [exact I|reflexivity]]. pose proof (good_at pf q m _ H Hq) as Gs. cbn [good cont] in *.
    destruct (tok_simple pf s Gs) as [(-> & _)|(-> & _)]; [split; reflexivity|]. destruct Gs as (_ & _ & Gf). unfold fenced in Gf. apply orb_false_iff in Gf. destruct Gf as [G1 G2].
    cbn [tree not_array not_object]. unfold reads_like. rewrite G1, G2. split; reflexivity. }
  destruct c as [q v|q x|q k v|q k v|q x k|q v|q i v]; cbn [do_p_mcmd m_effect p_m_calm] in *; try contradiction; apply change_none in He.
  - destruct He as [He|(u & _ & He)]; [|discriminate]. destruct (RM q Hz (Z q He)) as (q0 & x & r & _ & _ & _ & R1 & _). exists (EKeyNotFound x). apply R1.
  - assert (A : m_at m (q ++ [x]) = None).
    { rewrite m_at_app. destruct He as [->|(u & -> & E)]; [reflexivity|]. cbn [m_at]. replace (m_child u x) with (@None made); [reflexivity|].
      destruct u as [s|ps|ms]; cbn [m_remove m_child] in *; [reflexivity|destruct (assoc x ps); [discriminate E|reflexivity]|]. destruct (atoi x); [|reflexivity]. destruct (nth_z ms z); [discriminate E|reflexivity]. }
    destruct (RM _ Hz (Z _ A)) as (q0 & y & r & _ & _ & _ & _ & _ & R3 & _). exists (EKeyNotFound y). exact R3.
  - destruct Hc as (Hk & Ht & Hu). unfold P_AddKeyValueString. destruct k as [|k0 k1] eqn:Ek; [contradiction|]. rewrite <- Ek in *. clear Ek k0 k1.
    destruct He as [He|(u & Ha & He)]; [destruct (RM q Hz (Z q He)) as (q0 & x & r & _ & _ & _ & _ & _ & _ & _ & R5 & _); exists (EKeyNotFound x); apply R5, Hk|].
    destruct u as [s|ps|ms].
    + apply (holds_no_object counted1 p _ q _ _ _ Hp (L _ _ Ha) (S _ _ Ha Ht)); [intros ->; cbn [m_at] in Ha; injection Ha as ->; contradiction|exact (proj2 (C _ (ex_intro _ q Ha)))|exact Hk].
    + pose proof (Hu ps Ha) as ->. cbn [m_at] in Ha. injection Ha as ->. destruct (assoc k ps) as [y|] eqn:Ey; [|discriminate He]. exists (EKeyAlreadyExist k). rewrite cont_map in RT. eapply (proj2 RT); [reflexivity|exact Hk|].
      rewrite map_map. cbn [m_key]. apply (keys_in pf ps k y Ey).
    + apply (holds_no_object counted1 p _ q _ _ _ Hp (L _ _ Ha) (S _ _ Ha Ht)); [reflexivity|reflexivity|exact Hk].
  - destruct Hc as (Hk & Ht & Hn).
    assert (M : m_at m (q ++ [x]) = None -> exists e, P_SetKey p k (q ++ [x]) = PRet p (Some e)) by (intro A; destruct (RM _ Hz (Z _ A)) as (q0 & y & r & _ & _ & _ & _ & R2 & _); exists (EKeyNotFound y); apply R2, Hk).
    destruct He as [He|(u & Ha & He)]; [apply M; rewrite m_at_app, He; reflexivity|]. destruct u as [s|ps|ms]; [apply M; rewrite m_at_app, Ha; reflexivity| |contradiction (Hn ms Ha)].
    destruct (assoc x ps) as [y|] eqn:Ex; [|apply M; rewrite m_at_app, Ha; cbn [m_at m_child]; rewrite Ex; reflexivity]. destruct (assoc k ps) as [y'|] eqn:Ek; [|discriminate He].
    exists (EKeyAlreadyExist k). pose proof (L _ _ Ha) as La. rewrite cont_map in La. cbn [tree] in La. eapply (proj1 RT); [exact La|eapply S; [|exact Ht]; rewrite m_at_app, Ha; cbn [m_at m_child]; rewrite Ex; reflexivity|exact Hk|..];
      rewrite map_map; cbn [m_key]; eapply keys_in; eassumption.
  - destruct Hc as (Hv & Ht). unfold P_AddString. destruct He as [He|(u & Ha & He)]; [destruct (RM q Hz (Z q He)) as (q0 & x & r & _ & _ & _ & _ & _ & _ & R4 & _); exists (EKeyNotFound x); apply R4, G, Hv|].
    eexists. apply (RK q _ (L _ _ Ha) (S _ _ Ha Ht)); [intros ->; cbn [m_at] in Ha; injection Ha as ->; destruct u; [contradiction|reflexivity|reflexivity]| |apply G, Hv].
    pose proof (proj1 (C _ (ex_intro _ q Ha))) as N. destruct u; [exact N|exact N|discriminate He].
Qed.

Lemma tcmd_calls pf c cs p p1 e p' es : (forall q k v, c <> MStore q k v) -> do_p_mcmd pf c p = PRet p1 e -> ParserTypedGo.t_calls pf (flat_map (tcmd pf) cs) p1 = Some (p', es) ->
  ParserTypedGo.t_calls pf (flat_map (tcmd pf) (c :: cs)) p = Some (p', e :: es).
Proof.
  intros Hs E H. cbn [flat_map]. destruct c; cbn [tcmd do_p_mcmd app ParserTypedGo.t_calls ParserTypedGo.t_do Pointers.p_do] in *; try (rewrite E; cbv iota; rewrite H; reflexivity). contradiction (Hs p0 k v eq_refl).
Qed.
Theorem deep_parser_any pf cs m : good pf m -> filled m -> p_m_sures pf cs m ->
  exists p p' es, Parse (make pf m) = Ok p /\ ParserTypedGo.t_calls pf (flat_map (tcmd pf) cs) p = Some (p', es) /\ told_by es = m_applied cs m /\ P_JSON p' = make pf (m_final cs m) /\
    (forall q x, q <> [] -> m_at (m_final cs m) q = Some x -> m_straight (m_final cs m) q -> P_Get p' q = Ok (make pf x)) /\
    (forall q t, P_Get p' q = Ok t -> exists x, m_at (m_final cs m) q = Some x /\ (q <> [] -> t = make pf x)).
Proof.
  intros H Hf Hg. destruct (cont_ok pf m H) as (W & _). pose proof (make_text pf m H Hf) as E.
  assert (C : container (d_val (plain (cont pf m))) = true) by (destruct m; [contradiction|reflexivity|reflexivity]).
  destruct (parse_holds (plain (cont pf m)) (plain_wf _ W) C) as (p & Ep & Hp). rewrite <- E in Ep. exists p.
  assert (HH : exists p' es, ParserTypedGo.t_calls pf (flat_map (tcmd pf) cs) p = Some (p', es) /\ told_by es = m_applied cs m /\ stands p' (cont pf (m_final cs m)) /\ good pf (m_final cs m) /\ filled (m_final cs m) /\ fits (make pf (m_final cs m))).
  { apply (weaken_holds counted counted1 counted_weak) in Hp. fold (stands p (cont pf m)) in Hp. clear Ep E C W. revert m p H Hf Hg Hp. unfold m_final.
    induction cs as [|c cs IH]; intros m p H Hf Hg Hp; cbn [p_m_sures fold_left m_applied] in *; [exists p, []; auto 7|]. destruct Hg as (H1 & H2 & H3).
    assert (Hs : exists p1 e, do_p_mcmd pf c p = PRet p1 e /\ (match e with None => true | Some _ => false end) = m_applies c m /\ stands p1 (cont pf (m_after c m)) /\ good pf (m_after c m) /\ filled (m_after c m) /\ forall q k v, c <> MStore q k v).
    { unfold m_applies, m_after in *. destruct (m_effect c m) as [m1|] eqn:Em.
      - destruct H2 as [H2 H4]. destruct (deep_call pf m c m1 H Hf H2 Em) as (_ & G & F). destruct (deep_legal pf m c m1 H Hf H2 Em) as (L1 & L2 & _). destruct (cont_ok pf m H) as (W & _).
        destruct (effect_alike pf m c H2 H) as [E1 _]. rewrite Em in E1. cbn [option_map] in E1.
        destruct (stands_follows p (cont pf m) (op_of pf c) (cont pf m1) Hp W L1 L2 (deep_p_legal pf m c m1 H Hf H2 H4 Em) E1) as (p1 & E2 & Hp1).
        exists p1, None. rewrite (do_p_op pf c p m m1 H2 H4 Em). split; [exact E2|]. split; [reflexivity|]. split; [exact Hp1|]. split; [exact G|]. split; [exact F|]. intros q k v ->. exact H4.
      - destruct (deep_p_refused pf m c p H Hf H1 Em H2 Hp) as (e & Ee). exists p, (Some e). split; [exact Ee|]. split; [reflexivity|]. split; [exact Hp|]. split; [exact H|]. split; [exact Hf|]. intros q k v ->. exact H2. }
    destruct Hs as (p1 & e & Ee & Ea & Hp1 & G & F & Hst). destruct (IH _ p1 G F H3 Hp1) as (p' & es & R1 & R2 & R3). exists p', (e :: es).
    split; [exact (tcmd_calls pf c cs p p1 e p' es Hst Ee R1)|]. split; [|exact R3]. cbn [told_by map]. rewrite Ea. f_equal. exact R2. }
  destruct HH as (p' & es & R & T & Hp' & G & F & Hz). exists p', es. split; [exact Ep|]. split; [exact R|]. split; [exact T|]. apply stands_shows; assumption.
Qed.
Theorem deep_parser_any_written pf cs m : good pf m -> filled m -> m_octets m -> Forall mcmd_octets cs -> p_m_sures pf cs m ->
  exists p p' es, eventually (fun fuel => ParserGo.Parse_go (ParserGo.as_written fuel) (make pf m) = Ret (Some p, None)) /\
    eventually (fun fuel => ParserTypedGo.calls_t (ParserGo.as_written fuel) pf (flat_map (tcmd pf) cs) p = Ret (p', es)) /\ told_by es = m_applied cs m /\ Pointers.q_json p' = make pf (m_final cs m) /\
    forall q x, q <> [] -> m_at (m_final cs m) q = Some x -> m_straight (m_final cs m) q -> eventually (fun fuel => ParserGo.Get_p (ParserGo.as_written fuel) p' q = Ret (make pf x, None)).
Proof.
  intros H Hf Ho Hc Hg. destruct (deep_parser_any pf cs m H Hf Hg) as (p & p' & es & E1 & E2 & T & E3 & E4 & _).
  pose proof (ParserTypedGoProofs.typed_history_written pf (make pf m) (flat_map (tcmd pf) cs) (octets_make pf m Ho) (tcmd_octets pf cs Hc)) as W. rewrite E1 in W.
  destruct W as (r & Hr & W). rewrite E2 in W. destruct W as (r' & Hr' & Hj & Hget). exists r, r', es. split; [exact Hr|]. split; [exact Hr'|]. split; [exact T|]. split; [rewrite Hj; exact E3|].
  intros q x Hq Ha Hs. refine (ParserGoWritten.eventually_map _ _ _ (ParserGoWritten.Get_written r' q)). intros fuel ->. rewrite Hget, (E4 q x Hq Ha Hs). reflexivity.
Qed.

(** A test for the conditions, used in the examples *)
Fixpoint straight_b (m : made) (p : list bytes) : bool :=
  match p with
  | [] => true
  | x :: p =>
      match m with
      | MStr _ | MMap _ => true
      | MList ms => match ms with [MStr _] => false | _ => true end && match atoi x with Some z => bytes_eqb (itoa z) x | None => true end
      end && match m_child m x with Some m' => straight_b m' p | None => true end
  end.
Lemma straight_sound p : forall m, straight_b m p = true -> m_straight m p.
Proof.
  induction p as [|x p IH]; intros m H; [exact I|]. cbn [straight_b m_straight] in *. apply andb_prop in H. destruct H as [H1 H2]. split.
  - destruct m as [s|ps|ms]; [exact I|exact I|]. apply andb_prop in H1. destruct H1 as [H1 H3]. split; [intros s ->; discriminate H1|]. intros z E. rewrite E in H3. apply bytes_eqb_eq, H3.
  - destruct (m_child m x); [apply IH, H2|exact I].
Qed.
Fixpoint distinct_b (ks : list bytes) : bool := match ks with [] => true | k :: r => negb (existsb (bytes_eqb k) r) && distinct_b r end.
Lemma absent_sound k ks : negb (existsb (bytes_eqb k) ks) = true -> ~ In k ks.
Proof. intros H Hi. apply negb_true_iff in H. assert (E : existsb (bytes_eqb k) ks = true) by (apply existsb_exists; exists k; split; [exact Hi|apply bytes_eqb_eq; reflexivity]). congruence. Qed.
Lemma distinct_sound ks : distinct_b ks = true -> NoDup ks.
Proof. induction ks as [|k r IH]; intro H; [constructor|]. cbn [distinct_b] in H. apply andb_prop in H. destruct H as [H1 H2]. constructor; [apply absent_sound, H1|apply IH, H2]. Qed.
Definition label_b (m : made) (k : bytes) : bool :=
  match m with
  | MStr _ => true
  | MMap ps => negb (existsb (bytes_eqb k) (map fst ps))
  | MList ms => negb (existsb (bytes_eqb k) (map (fun i => itoa (Z.of_nat i)) (seq 0 (length ms))))
  end.
Lemma label_sound m k : label_b m k = true -> m_label_free m k.
Proof.
  destruct m as [s|ps|ms]; intro H; cbn [label_b m_label_free] in *; [exact I|apply absent_sound, H|]. intros i Hi E. apply absent_sound in H. apply H. rewrite <- E. apply in_map_iff. exists i. split; [reflexivity|].
  apply in_seq. lia.
Qed.
Definition p_mcmd_b (m : made) (c : mcmd) : bool :=
  let leaf v := match v with MStr _ => true | _ => false end in
  let begun (q : list bytes) := match q, m with [], MMap [] | [], MList [] => false | _, _ => true end in
  match c with
  | MSet q v => leaf v && straight_b m q && match m_at m q with Some (MMap []) | Some (MList []) | Some (MStr _) => true | _ => false end
  | MDelete q x => straight_b m (q ++ [x]) && match m_at m q with
      | Some (MMap ps) => distinct_b (map fst ps)
      | Some (MList (u :: ms)) => match atoi x with Some z => (z =? Z.of_nat (length ms))%Z | None => false end
      | _ => false
      end
  | MAddKey q k v => leaf v && straight_b m q && begun q && match rev q with [] => true | _ :: r => match m_at m (rev r) with Some u => label_b u k | None => true end end
  | MRename q x k => straight_b m (q ++ [x]) && match m_at m q with Some (MMap ps) => distinct_b (map fst ps) | _ => true end
  | MAppend q v => leaf v && straight_b m q && begun q && match m_at m q with Some (MList [MStr _]) => false | _ => true end
  | MStore _ _ _ | MInsert _ _ _ => false
  end.
Lemma p_mcmd_sound m c : p_mcmd_b m c = true -> p_mcmd_ok m c.
Proof.
  assert (B : forall q : list bytes, match q, m with [], MMap [] | [], MList [] => false | _, _ => true end = true -> q = [] -> m <> MMap [] /\ m <> MList []) by (intros q H ->; split; intros ->; discriminate H).
  destruct c as [q v|q x|q k v|q k v|q x k|q v|q i v]; cbn [p_mcmd_b p_mcmd_ok]; intro H; try discriminate H; repeat match goal with H : _ && _ = true |- _ => apply andb_prop in H; destruct H end;
    repeat match goal with |- (exists s, v = MStr s) /\ _ => split; [destruct v; [eauto|discriminate|discriminate]|] | |- m_straight _ _ /\ _ => split; [apply straight_sound; assumption|] end.
  - destruct (m_at m q) as [[s|[|]|[|]]|]; try discriminate; eauto.
  - destruct (m_at m q) as [[s|ps|[|u ms]]|]; try discriminate; [left; exists ps; split; [reflexivity|apply distinct_sound; assumption]|]. right.
    destruct (exists_last (l := u :: ms)) as (r & y & E); [discriminate|]. exists r, y. split; [rewrite E; reflexivity|]. apply (f_equal (@length _)) in E. rewrite app_length in E. cbn [length] in E.
    destruct (atoi x) as [z|]; [|discriminate]. match goal with H : (z =? _)%Z = true |- _ => apply Z.eqb_eq in H; rewrite H end. do 2 f_equal. lia.
  - split; [apply B; assumption|]. intros q0 x u -> Hu. rewrite rev_app_distr in *. cbn [rev app] in *. rewrite rev_involutive, Hu in *. apply label_sound. assumption.
  - intros ps Hu. rewrite Hu in *. apply distinct_sound. assumption.
  - split; [apply B; assumption|]. intros s Hu. rewrite Hu in *. discriminate.
Qed.
