(** Parse on any bytes. *)
From Coq Require Import String.
From Verif Require Import GoStd Core Skip Focus CoreProofs Errors Api Iter Typed Parser SpecScan.

Local Open Scope N_scope.

(** ** Executable forms of the conditions *)
Fixpoint bad (d : nat) (early : bool) (u : bytes) : bool :=
  match u with
  | [] => false
  | c :: r =>
      if c =? 34 then bad d false r
      else if opening c then bad (S d) early r
      else if closing c then match d with O => true | S d' => bad d' early r end
      else if c =? 58 then early || bad d early r
      else bad d early r
  end.
Fixpoint depth (d : nat) (u : bytes) : nat :=
  match u with
  | [] => d
  | c :: r => if opening c then depth (S d) r else if closing c then depth (pred d) r else depth d r
  end.
(** Whether a node is made at depth 0; [l] whether a comma or colon came before *)
Fixpoint busy (l : bool) (u : bytes) : bool :=
  match u with
  | [] => false
  | c :: r => opening c || (if c =? 44 then l || busy true r else if c =? 58 then busy true r else busy l r)
  end.

Lemma count_cons f c r : count f (c :: r) = ((if f c then 1 else 0) + count f r)%nat.
Proof. unfold count. cbn [filter]. destruct (f c); reflexivity. Qed.
Lemma count_app f a c : count f (a ++ c) = (count f a + count f c)%nat.
Proof. unfold count. rewrite filter_app, app_length. reflexivity. Qed.

Lemma early_cons c r : c <> 34 -> (early_colon (c :: r) <-> c = 58 \/ early_colon r).
Proof.
  intro Hc. split.
  - intros (u1 & u2 & E & Hn). destruct u1 as [|x u1]; cbn [app] in E; injection E as -> E; [left; reflexivity|]. right. exists u1, u2. split; [exact E|].
    intro H. apply Hn. right. exact H.
  - intros [->|(u1 & u2 & -> & Hn)]; [exists [], r; split; [reflexivity|intros []]|]. exists (c :: u1), u2. split; [reflexivity|].
    intros [H|H]; [exact (Hc H)|exact (Hn H)].
Qed.
Lemma early_quote r : ~ early_colon (34 :: r).
Proof. intros (u1 & u2 & E & Hn). destruct u1 as [|x u1]; cbn [app] in E; [discriminate E|]. injection E as <- E. apply Hn. left. reflexivity. Qed.

(** [overclosed] with [d] brackets open already *)
Definition over (d : nat) (u : bytes) : Prop := exists u1 u2, u = u1 ++ u2 /\ (d + count opening u1 < count closing u1)%nat.
Lemma over_cons d c r : over d (c :: r) <->
  (if opening c then over (S d) r else if closing c then match d with O => True | S d' => over d' r end else over d r).
Proof.
  assert (Ho : forall x, opening x = true -> closing x = false).
  { unfold opening, closing. intros x H. apply orb_true_iff in H. destruct H as [H|H]; apply N.eqb_eq in H; rewrite H; reflexivity. }
  assert (Hd : forall d', d = S d' \/ opening c = true \/ closing c = false -> over d (c :: r) -> True) by tauto. clear Hd.
  split.
  - intros (u1 & u2 & E & Hlt). destruct u1 as [|x u1]; [cbn in Hlt; lia|]. cbn [app] in E. injection E as <- ->. rewrite !count_cons in Hlt.
    destruct (opening c) eqn:E1; [rewrite (Ho c E1) in Hlt; exists u1, u2; split; [reflexivity|lia]|].
    destruct (closing c) eqn:E2; [destruct d; [exact I|]|]; exists u1, u2; (split; [reflexivity|lia]).
  - destruct (opening c) eqn:E1; [|destruct (closing c) eqn:E2; [destruct d as [|d]|]].
    + intros (u1 & u2 & -> & Hlt). exists (c :: u1), u2. split; [reflexivity|]. rewrite !count_cons, E1, (Ho c E1). lia.
    + intros _. exists [c], r. split; [reflexivity|]. rewrite !count_cons, E1, E2. cbn. lia.
    + intros (u1 & u2 & -> & Hlt). exists (c :: u1), u2. split; [reflexivity|]. rewrite !count_cons, E1, E2. lia.
    + intros (u1 & u2 & -> & Hlt). exists (c :: u1), u2. split; [reflexivity|]. rewrite !count_cons, E1, E2. lia.
Qed.
Lemma bad_spec u : forall d early, bad d early u = true <-> over d u \/ (early = true /\ early_colon u).
Proof.
  induction u as [|c r IH]; intros d early.
  - split; [discriminate|]. intros [(u1 & u2 & E & H)|[_ (u1 & u2 & E & _)]].
    + symmetry in E. apply app_eq_nil in E. destruct E as [-> _]. cbn in H. lia.
    + destruct u1; discriminate E.
  - rewrite over_cons. cbn [bad]. destruct (N.eqb_spec c 34) as [->|Hq].
    { change (opening 34) with false. change (closing 34) with false. cbv iota. rewrite IH. split.
      - intros [H|[H _]]; [left; exact H|discriminate H].
      - intros [H|[_ H]]; [left; exact H|destruct (early_quote r H)]. }
    rewrite (early_cons c r Hq). destruct (opening c) eqn:E1.
    { rewrite IH. assert (c <> 58) by (intro E; rewrite E in E1; discriminate E1). tauto. }
    destruct (closing c) eqn:E2.
    { destruct d as [|d]; [tauto|]. rewrite IH. assert (c <> 58) by (intro E; rewrite E in E2; discriminate E2). tauto. }
    destruct (N.eqb_spec c 58) as [->|Hc].
    + rewrite orb_true_iff, IH. tauto.
    + rewrite IH. tauto.
Qed.
Lemma busy_spec u : forall l, busy l u = true <-> (exists c, In c u /\ opening c = true) \/
  (exists u1 u2, u = u1 ++ 44 :: u2 /\ (l = true \/ In 44 u1 \/ In 58 u1)).
Proof.
  induction u as [|c r IH]; intro l.
  - split; [discriminate|]. intros [(c & [] & _)|(u1 & u2 & E & _)]. destruct u1; discriminate E.
  - cbn [busy]. rewrite orb_true_iff. split.
    + intros [H|H]; [left; exists c; split; [left; reflexivity|exact H]|].
      assert (K : forall l', busy l' r = true -> (l' = true -> l = true \/ c = 44 \/ c = 58) ->
        (exists c0, In c0 (c :: r) /\ opening c0 = true) \/ (exists u1 u2, c :: r = u1 ++ 44 :: u2 /\ (l = true \/ In 44 u1 \/ In 58 u1))).
      { intros l' Hb Hl. apply IH in Hb. destruct Hb as [(x & Hx & Ho)|(u1 & u2 & -> & Hu)]; [left; exists x; split; [right; exact Hx|exact Ho]|].
        right. exists (c :: u1), u2. split; [reflexivity|]. cbn [In]. destruct Hu as [Hu|Hu]; [specialize (Hl Hu); destruct Hl as [Hl|[Hl|Hl]]; auto|tauto]. }
      destruct (N.eqb_spec c 44) as [E|E].
      * apply orb_true_iff in H. destruct H as [H|H]; [right; exists [], r; split; [rewrite E; reflexivity|left; exact H]|]. apply (K true H). auto.
      * destruct (N.eqb_spec c 58) as [E'|E']; [apply (K true H); auto|apply (K l H); auto].
    + intros [(x & [<-|Hx] & Ho)|(u1 & u2 & E & Hu)]; [left; exact Ho| |].
      * right. assert (K : forall l', busy l' r = true) by (intro l'; apply IH; left; exists x; auto).
        rewrite !K. destruct (c =? 44); [apply orb_true_r|]. destruct (c =? 58); reflexivity.
      * right. destruct u1 as [|x u1]; cbn [app] in E; injection E as E1 ->.
        { rewrite E1. cbn [N.eqb Pos.eqb]. destruct Hu as [->|[[]|[]]]. reflexivity. }
        subst x.
        assert (K : forall l', (l' = true \/ In 44 u1 \/ In 58 u1) -> busy l' (u1 ++ 44 :: u2) = true) by (intros l' H; apply IH; right; exists u1, u2; auto).
        destruct (N.eqb_spec c 44) as [E|E]; [rewrite K by auto; apply orb_true_r|].
        destruct (N.eqb_spec c 58) as [E'|E']; [apply K; auto|]. apply K. cbn [In] in Hu. intuition congruence.
Qed.
Lemma depth_spec u : forall d, ~ over d u -> (depth d u + count closing u = d + count opening u)%nat.
Proof.
  assert (Ho : forall x, opening x = true -> closing x = false).
  { unfold opening, closing. intros x H. apply orb_true_iff in H. destruct H as [H|H]; apply N.eqb_eq in H; rewrite H; reflexivity. }
  induction u as [|c r IH]; intros d H; [cbn; lia|]. rewrite over_cons in H. cbn [depth]. rewrite !count_cons.
  destruct (opening c) eqn:E1; [rewrite (Ho c E1); specialize (IH (S d) H); lia|].
  destruct (closing c) eqn:E2; [destruct d as [|d]; [tauto|]; specialize (IH d H); cbn [pred]; lia|]. specialize (IH d H). lia.
Qed.

(** ** Values *)
Section NodeInd.
  Variable P : node -> Prop.
  Hypothesis H : forall l v d, Forall P d -> P (Node l v d).
  Fixpoint node_ind' (n : node) : P n :=
    match n with
    | Node l v d => H l v d ((fix go ds : Forall P ds := match ds with [] => Forall_nil P | x :: r => Forall_cons x (node_ind' x) (go r) end) d)
    end.
End NodeInd.
Definition paired (v : bytes) : Prop := place v = Outside.
Fixpoint weak (n : node) : Prop :=
  let 'Node _ v d := n in paired v /\ (fix go (ns : list node) : Prop := match ns with [] => True | x :: r => weak x /\ go r end) d.
Fixpoint strong (n : node) : Prop :=
  let 'Node _ v d := n in paired v /\ (d <> [] -> exists c r, v = c :: r /\ opening c = true) /\
    (fix go (ns : list node) : Prop := match ns with [] => True | x :: r => strong x /\ go r end) d.
Lemma weak_node l v d : weak (Node l v d) <-> paired v /\ Forall weak d.
Proof.
  cbn [weak]. assert (E : forall d, (fix go (ns : list node) : Prop := match ns with [] => True | x :: r => weak x /\ go r end) d <-> Forall weak d).
  { induction d0 as [|x r IH]; [split; constructor|]. rewrite IH. split; [intros [? ?]; constructor; assumption|intro H; inversion H; auto]. }
  rewrite E. tauto.
Qed.
Lemma strong_node l v d : strong (Node l v d) <-> paired v /\ (d <> [] -> exists c r, v = c :: r /\ opening c = true) /\ Forall strong d.
Proof.
  cbn [strong]. assert (E : forall d, (fix go (ns : list node) : Prop := match ns with [] => True | x :: r => strong x /\ go r end) d <-> Forall strong d).
  { induction d0 as [|x r IH]; [split; constructor|]. rewrite IH. split; [intros [? ?]; constructor; assumption|intro H; inversion H; auto]. }
  rewrite E. tauto.
Qed.
Lemma strong_weak n : strong n -> weak n.
Proof.
  induction n as [l v d IH] using node_ind'. rewrite strong_node, weak_node. intros (Hp & _ & Hd). split; [exact Hp|].
  rewrite Forall_forall in *. auto.
Qed.

(** ** The loop *)
Lemma place_snoc t c : place (t ++ [c]) = next (place t) c.
Proof. unfold place. rewrite fold_left_app. reflexivity. Qed.

Definition frame_ok (f : frame) : Prop := Forall strong (fr_down f) /\ fr_value f = [].
Definition from_here (w : where_) (pre : bytes) (n : nat) : Prop := exists p m, pre = p ++ m /\ length p = n /\ place m = w.
Definition from_bracket (w : where_) (pre : bytes) (n : nat) : Prop :=
  exists p c m, pre = p ++ c :: m /\ length p = n /\ opening c = true /\ place m = w.
Definition no_node (up : list frame) : Prop := exists f, up = [f] /\ fr_down f = [].

Record Inv (pre : bytes) (w : where_) (early : bool) (start stop vs : nat) (last : N) (l : bool) (braces idx : list nat) (up : list frame) : Prop := {
  i_in : match w with Outside => early = (stop <? start)%nat | Inside e => early = false /\ exists p s, pre = p ++ 34 :: s /\ start = S (length p) /\ par s = e end;
  i_stop : (stop <= length pre)%nat;
  i_vs : from_here w pre vs;
  i_braces : Forall (from_bracket w pre) braces;
  i_idx : length idx = S (length braces);
  i_up : length up = S (length braces);
  i_frames : Forall frame_ok up;
  i_last : no_node up -> (last = 0 /\ l = false) \/ ((last = 58 \/ last = 44) /\ l = true)
}.

Lemma from_here_step w pre n c : from_here w pre n -> from_here (next w c) (pre ++ [c]) n.
Proof. intros (p & m & -> & Hl & Hp). exists p, (m ++ [c]). rewrite place_snoc, Hp, app_assoc. auto. Qed.
Lemma from_bracket_step w pre n c : from_bracket w pre n -> from_bracket (next w c) (pre ++ [c]) n.
Proof. intros (p & x & m & -> & Hl & Ho & Hp). exists p, x, (m ++ [c]). rewrite place_snoc, Hp, <- app_assoc. auto. Qed.
Lemma brackets_step w pre ns c : Forall (from_bracket w pre) ns -> Forall (from_bracket (next w c) (pre ++ [c])) ns.
Proof. intro H. eapply Forall_impl; [|exact H]. intros n. apply from_bracket_step. Qed.
Lemma from_here_now pre c : from_here Outside (pre ++ [c]) (S (length pre)).
Proof. exists (pre ++ [c]), []. rewrite app_nil_r, length_snoc. repeat split. Qed.

Lemma slice_here pre r n w : from_here w pre n -> exists v, slice (pre ++ r) n (length pre) = Ok v /\ place v = w.
Proof.
  intros (p & m & -> & <- & Hp). exists m. split; [|exact Hp]. rewrite <- app_assoc. apply slice_app.
Qed.
Lemma opening_open c : is_open c = opening c. Proof. reflexivity. Qed.
Lemma closing_close c : is_close c = closing c. Proof. reflexivity. Qed.

Definition outcome (r : res (list node)) (d : nat) (early l : bool) (up : list frame) (u : bytes) : Prop :=
  match r with
  | Panic => bad d early u = true
  | Err _ => False
  | Ok ns => bad d early u = false /\ Forall weak ns /\ (depth d u = O -> Forall strong ns) /\ (ns = [] <-> no_node up /\ busy l u = false)
  end.

Lemma frames_add n up : strong n -> Forall frame_ok up -> up <> [] ->
  exists up', add_down n up = Ok up' /\ Forall frame_ok up' /\ length up' = length up /\ ~ no_node up'.
Proof.
  intros Hn Hu Hne. destruct up as [|f up]; [contradiction|]. inversion Hu as [|? ? [H1 H2] H3]; subst. eexists. split; [reflexivity|].
  split; [constructor; [split; [constructor; assumption|exact H2]|exact H3]|]. split; [reflexivity|].
  intros (g & E & Hg). injection E as <- _. discriminate Hg.
Qed.
Lemma close_weak up : Forall frame_ok up -> Forall weak (close_all up).
Proof.
  intro H. assert (G : forall up n, weak n -> Forall frame_ok up -> Forall weak (close_onto n up)).
  { clear. induction up as [|f up IH]; intros n Hn H; [repeat constructor; exact Hn|]. inversion H as [|? ? [H1 H2] H3]; subst.
    assert (Hd : Forall weak (rev (n :: fr_down f))).
    { apply Forall_rev. constructor; [exact Hn|]. eapply Forall_impl; [|exact H1]. intro. apply strong_weak. }
    destruct up as [|g up]; [exact Hd|]. cbn [close_onto]. apply IH; [|exact H3]. unfold close_frame. cbn [frame_add fr_label fr_value fr_down].
    apply weak_node. split; [rewrite H2; reflexivity|exact Hd]. }
  destruct up as [|f [|g up]]; [constructor| |]; inversion H as [|? ? [H1 H2] H3]; subst.
  - cbn [close_all]. apply Forall_rev. eapply Forall_impl; [|exact H1]. intro. apply strong_weak.
  - cbn [close_all]. apply G; [|exact H3]. unfold close_frame. apply weak_node. split; [rewrite H2; reflexivity|]. apply Forall_rev.
    eapply Forall_impl; [|exact H1]. intro. apply strong_weak.
Qed.
Lemma close_onto_ne up : forall n, close_onto n up <> [].
Proof.
  induction up as [|f up IH]; intro n; [discriminate|]. destruct up as [|g up]; [|apply IH]. cbn [close_onto rev]. intro E.
  apply app_eq_nil in E. destruct E; discriminate.
Qed.
Lemma close_none up : up <> [] -> (close_all up = [] <-> no_node up).
Proof.
  intro Hne. destruct up as [|f [|g up]]; [contradiction| |].
  - cbn [close_all]. split.
    + intro E. exists f. split; [reflexivity|]. apply (f_equal (@rev node)) in E. rewrite rev_involutive in E. exact E.
    + intros (f' & E & Hf). injection E as <-. rewrite Hf. reflexivity.
  - cbn [close_all]. split; [intro E; destruct (close_onto_ne _ _ E)|intros (f' & E & _); discriminate E].
Qed.

Lemma loop_outcome json rest : forall pre w early start stop key vs last l braces idx up,
  json = pre ++ rest -> Inv pre w early start stop vs last l braces idx up ->
  outcome (p_loop json rest (length pre) (match w with Outside => false | _ => true end) start stop key vs last braces idx up)
          (length braces) early l up (outside w rest).
Proof.
  induction rest as [|c r IH]; intros pre w early start stop key vs last l braces idx up Hj I.
  { cbn [p_loop outside]. destruct I as [Hin Hstop Hvs Hbr Hidx Hup Hfr Hlast]. unfold outcome. cbn [bad depth busy].
    split; [reflexivity|]. split; [apply close_weak; exact Hfr|]. split.
    - intro E. destruct braces; [|discriminate E]. destruct up as [|f [|]]; try discriminate Hup. cbn [close_all]. apply Forall_rev.
      inversion Hfr as [|? ? [H1 _] _]; subst. exact H1.
    - rewrite close_none by (intros ->; discriminate Hup). tauto. }
  assert (Hj' : json = (pre ++ [c]) ++ r) by (rewrite Hj, <- app_assoc; reflexivity).
  pose proof (IH (pre ++ [c])) as IH'. rewrite length_snoc in IH'. clear IH. rename IH' into IH.
  pose proof I as [Hin Hstop Hvs Hbr Hidx Hup Hfr Hlast].
  destruct w as [|e].
  - (* outside *)
    cbn [p_loop outside next]. destruct (N.eqb_spec c 34) as [->|Hq].
    { (* a string begins *)
      unfold outcome. cbn [bad N.eqb Pos.eqb depth opening closing orb busy].
      specialize (IH (Inside false) false (S (length pre)) stop key vs last l braces idx up Hj'). apply IH. constructor; try assumption.
      - split; [reflexivity|]. exists pre, []. auto.
      - rewrite length_snoc. lia.
      - apply (from_here_step Outside pre vs 34 Hvs).
      - apply (brackets_step Outside pre braces 34 Hbr). }
    cbn [p_loop]. cbv iota.
    assert (Hnext : next Outside c = Outside) by (cbn [next]; destruct (N.eqb_spec c 34); [contradiction|reflexivity]).
    assert (Hvs' : from_here Outside (pre ++ [c]) vs) by (rewrite <- Hnext at 1; apply from_here_step; exact Hvs).
    assert (Hbr' : Forall (from_bracket Outside (pre ++ [c])) braces) by (rewrite <- Hnext at 1; apply brackets_step; exact Hbr).
    assert (Hstop' : (stop <= length (pre ++ [c]))%nat) by (rewrite length_snoc; lia).
    rewrite opening_open, closing_close. unfold outcome. cbn [bad depth busy]. replace (c =? 34) with false by (symmetry; apply N.eqb_neq; exact Hq).
    destruct (opening c) eqn:Eo.
    { (* a bracket is opened *)
      assert (Hc44 : c =? 44 = false) by (destruct (N.eqb_spec c 44) as [->|]; [discriminate Eo|reflexivity]).
      assert (Hcl : closing c = false).
      { unfold opening in Eo. apply orb_true_iff in Eo. destruct Eo as [Eo|Eo]; apply N.eqb_eq in Eo; rewrite Eo; reflexivity. }
      assert (Hlbl : exists lbl, open_label last key idx = Ok lbl).
      { unfold open_label. destruct (last =? 58); [eexists; reflexivity|]. destruct idx as [|n idx]; [discriminate Hidx|]. eexists. reflexivity. }
      destruct Hlbl as (lbl & ->). cbn [bind]. destruct up as [|f up]; [discriminate Hup|].
      specialize (IH Outside early start stop key (S (length pre)) c l (length pre :: braces) (0%nat :: idx) (Fr lbl [] [] :: f :: up) Hj').
      assert (HI : Inv (pre ++ [c]) Outside early start stop (S (length pre)) c l (length pre :: braces) (0%nat :: idx) (Fr lbl [] [] :: f :: up)).
      { constructor; try assumption.
        - apply from_here_now.
        - constructor; [exists pre, c, []; repeat split; exact Eo|exact Hbr'].
        - cbn [length] in *. lia.
        - cbn [length] in *. lia.
        - constructor; [split; [constructor|reflexivity]|exact Hfr].
        - intros (g & E & _). discriminate E. }
      specialize (IH HI). unfold outcome in IH. cbn [orb]. destruct (p_loop _ _ _ _ _ _ _ _ _ _ _ _) as [ns|er|]; [|exact IH|exact IH].
      destruct IH as (H1 & H2 & H3 & H4). split; [exact H1|]. split; [exact H2|]. split; [exact H3|]. split.
      - intro E. apply H4 in E. destruct E as [(g & E & _) _]. discriminate E.
      - intros [_ E]. discriminate E. }
    cbn [orb]. destruct (closing c) eqn:Ec.
    { (* a bracket is closed *)
      assert (Hc44 : c =? 44 = false) by (destruct (N.eqb_spec c 44) as [->|]; [discriminate Ec|reflexivity]).
      assert (Hc58 : c =? 58 = false) by (destruct (N.eqb_spec c 58) as [->|]; [discriminate Ec|reflexivity]).
      rewrite Hc44, Hc58.
      destruct (slice_here pre (c :: r) vs Outside Hvs) as (v & Hv & Hpv). rewrite <- Hj in Hv.
      assert (Hpart : exists up1 vs1, (if last =? 58 then do v <- slice json vs (length pre); do up <- add_down (Node key v []) up; Ok (up, vs)
             else if last =? 44 then do n <- seq_top idx; do v <- slice json vs (length pre);
               do up <- add_down (Node (itoa (Z.of_nat n)) v []) up; Ok (up, S (length pre))
             else Ok (up, vs)) = Ok (up1, vs1) /\ Forall frame_ok up1 /\ length up1 = length up /\ from_here Outside (pre ++ [c]) vs1).
      { assert (Hne : up <> []) by (intros ->; discriminate Hup).
        destruct (last =? 58); [|destruct (last =? 44)].
        - rewrite Hv. cbn [bind]. destruct (frames_add (Node key v []) up) as (up1 & E & H1 & H2 & _); [apply strong_node; repeat split; [exact Hpv|intro H; destruct (H eq_refl)|constructor]|exact Hfr|exact Hne|].
          rewrite E. cbn [bind]. exists up1, vs. auto.
        - destruct idx as [|n idx]; [discriminate Hidx|]. cbn [seq_top bind]. rewrite Hv. cbn [bind].
          destruct (frames_add (Node (itoa (Z.of_nat n)) v []) up) as (up1 & E & H1 & H2 & _); [apply strong_node; repeat split; [exact Hpv|intro H; destruct (H eq_refl)|constructor]|exact Hfr|exact Hne|].
          rewrite E. cbn [bind]. exists up1, (S (length pre)). repeat split; try assumption. apply from_here_now.
        - exists up, vs. auto. }
      destruct Hpart as (up1 & vs1 & -> & Hfr1 & Hlen1 & Hvs1). cbn [bind].
      destruct braces as [|bp braces]; [reflexivity|]. cbn [seq_pop bind].
      pose proof (Forall_inv Hbr) as (p & x & m & Hpre & Hlp & Hox & Hm). apply Forall_inv_tail in Hbr'.
      assert (Hs : slice json bp (S (length pre)) = Ok (x :: m ++ [c])).
      { apply (slice_app_eq _ p (x :: m ++ [c]) r); [|auto|].
        - rewrite Hj', Hpre. repeat (rewrite <- app_assoc; cbn [app]). reflexivity.
        - rewrite Hpre. len. }
      rewrite Hs. cbn [bind]. destruct idx as [|n0 idx]; [discriminate Hidx|]. cbn [seq_pop bind].
      destruct up1 as [|f [|g up1]]; [rewrite Hup in Hlen1; discriminate Hlen1|rewrite Hup in Hlen1; discriminate Hlen1|].
      cbn [go_up bind]. pose proof (Forall_inv Hfr1) as [Hf1 Hf2]. apply Forall_inv_tail in Hfr1. pose proof (Forall_inv Hfr1) as [Hg1 Hg2]. pose proof (Forall_inv_tail Hfr1) as Hfr3.
      set (n := close_frame (Fr (fr_label f) (x :: m ++ [c]) (fr_down f))).
      assert (Hn : strong n).
      { unfold n, close_frame. cbn [fr_label fr_value fr_down]. apply strong_node. split; [|split; [intros _; exists x, (m ++ [c]); auto|apply Forall_rev; exact Hf1]].
        unfold paired, place. cbn [fold_left]. assert (Hx : next Outside x = Outside).
        { cbn [next]. destruct (N.eqb_spec x 34) as [->|]; [discriminate Hox|reflexivity]. }
        rewrite Hx. change (place (m ++ [c]) = Outside). rewrite place_snoc, Hm. exact Hnext. }
      assert (HI : Inv (pre ++ [c]) Outside early start stop vs1 c l braces idx (frame_add n g :: up1)).
      { constructor; try assumption.
        - cbn [length] in *. lia.
        - cbn [length] in *. lia.
        - constructor; [split; [constructor; assumption|exact Hg2]|exact Hfr3].
        - intros (h & E & Hh). injection E as <- _. discriminate Hh. }
      specialize (IH Outside early start stop key vs1 c l braces idx (frame_add n g :: up1) Hj' HI). unfold outcome in IH. cbn [length pred].
      destruct (p_loop _ _ _ _ _ _ _ _ _ _ _ _) as [ns|er|]; [|exact IH|exact IH].
      destruct IH as (H1 & H2 & H3 & H4). split; [exact H1|]. split; [exact H2|]. split; [exact H3|]. split.
      - intro E. apply H4 in E. destruct E as [(h & E & Hh) _]. injection E as <- _. discriminate Hh.
      - intros [(h & -> & _) _]. cbn [length] in *. lia. }
    destruct (N.eqb_spec c 58) as [->|H58].
    { (* a colon *)
      cbn [N.eqb Pos.eqb]. destruct (Nat.leb_spec start stop) as [Hss|Hss].
      - assert (Hs : exists k, slice json start stop = Ok k).
        { unfold slice. rewrite (proj2 (Nat.leb_le _ _) Hss). assert (E : (stop <=? length json)%nat = true) by (apply Nat.leb_le; rewrite Hj; len).
          rewrite E. eexists. reflexivity. }
        destruct Hs as (k & ->). cbn [bind]. assert (Hea : early = false) by (rewrite Hin; apply Nat.ltb_ge; exact Hss). rewrite Hea in *. cbn [orb].
        specialize (IH Outside false start stop k (S (length pre)) 58 true braces idx up Hj').
        assert (HI : Inv (pre ++ [58]) Outside false start stop (S (length pre)) 58 true braces idx up).
        { constructor; try assumption; [apply from_here_now|]. intros _. right. auto. }
        exact (IH HI).
      - assert (Hs : slice json start stop = Panic) by (unfold slice; replace (start <=? stop)%nat with false by (symmetry; apply Nat.leb_gt; exact Hss); reflexivity).
        rewrite Hs. cbn [bind]. assert (Hea : early = true) by (rewrite Hin; apply Nat.ltb_lt; exact Hss). rewrite Hea. reflexivity. }
    destruct (N.eqb_spec c 44) as [->|H44].
    { (* a comma *)
      destruct (slice_here pre (44 :: r) vs Outside Hvs) as (v & Hv & Hpv). rewrite <- Hj in Hv.
      assert (Hne : up <> []) by (intros ->; discriminate Hup).
      assert (Hpart : exists up1, (if last =? 58 then do v <- slice json vs (length pre); add_down (Node key v []) up
             else if (last =? 44) || (last =? 91) then do n <- seq_top idx; do v <- slice json vs (length pre); add_down (Node (itoa (Z.of_nat n)) v []) up
             else Ok up) = Ok up1 /\ Forall frame_ok up1 /\ length up1 = length up /\
             ((last = 58 \/ last = 44 \/ last = 91) /\ ~ no_node up1 \/ ~ (last = 58 \/ last = 44 \/ last = 91) /\ up1 = up)).
      { destruct (N.eqb_spec last 58) as [E58|E58]; [|destruct (N.eqb_spec last 44) as [E44|E44]; [|destruct (N.eqb_spec last 91) as [E91|E91]]]; cbn [orb].
        - rewrite Hv. cbn [bind]. destruct (frames_add (Node key v []) up) as (up1 & E & H1 & H2 & H3); [apply strong_node; repeat split; [exact Hpv|intro H; destruct (H eq_refl)|constructor]|exact Hfr|exact Hne|].
          rewrite E. exists up1. auto 8.
        - destruct idx as [|n idx]; [discriminate Hidx|]. cbn [seq_top bind]. rewrite Hv. cbn [bind].
          destruct (frames_add (Node (itoa (Z.of_nat n)) v []) up) as (up1 & E & H1 & H2 & H3); [apply strong_node; repeat split; [exact Hpv|intro H; destruct (H eq_refl)|constructor]|exact Hfr|exact Hne|].
          rewrite E. exists up1. auto 8.
        - destruct idx as [|n idx]; [discriminate Hidx|]. cbn [seq_top bind]. rewrite Hv. cbn [bind].
          destruct (frames_add (Node (itoa (Z.of_nat n)) v []) up) as (up1 & E & H1 & H2 & H3); [apply strong_node; repeat split; [exact Hpv|intro H; destruct (H eq_refl)|constructor]|exact Hfr|exact Hne|].
          rewrite E. exists up1. auto 8.
        - exists up. repeat split; try assumption. right. split; [tauto|reflexivity]. }
      destruct Hpart as (up1 & -> & Hfr1 & Hlen1 & Hcase). cbn [bind]. destruct idx as [|n0 idx]; [discriminate Hidx|]. cbn [seq_inc bind].
      assert (HI : Inv (pre ++ [44]) Outside early start stop (S (length pre)) 44 true braces (S n0 :: idx) up1).
      { constructor; try assumption; [apply from_here_now|lia|]. intros _. right. auto. }
      specialize (IH Outside early start stop key (S (length pre)) 44 true braces (S n0 :: idx) up1 Hj' HI). unfold outcome in IH.
      destruct (p_loop _ _ _ _ _ _ _ _ _ _ _ _) as [ns|er|]; [|exact IH|exact IH].
      destruct IH as (H1 & H2 & H3 & H4). split; [exact H1|]. split; [exact H2|]. split; [exact H3|]. rewrite H4. split.
      + intros [Hn Hb]. destruct Hcase as [[_ Hc]|[Hc ->]]; [destruct (Hc Hn)|]. split; [exact Hn|].
        destruct (Hlast Hn) as [[_ ->]|[[E|E] _]]; [exact Hb| |]; destruct Hc; auto.
      + intros [Hn Hb]. apply orb_false_iff in Hb. destruct Hb as [Hl Hb]. destruct (Hlast Hn) as [[E0 _]|[_ E]]; [|congruence].
        destruct Hcase as [[[Hc|[Hc|Hc]] _]|[_ ->]]; try congruence. tauto. }
    specialize (IH Outside early start stop key vs last l braces idx up Hj'). apply IH. constructor; assumption.
  - (* in a string *)
    cbn [p_loop outside]. destruct Hin as (-> & p & s & Hpre & Hst & Hpar).
    destruct (N.eqb_spec c 34) as [->|Hq].
    + cbn [next N.eqb Pos.eqb andb].
      assert (Hqs : qscan json (length pre) = Some (negb e)).
      { rewrite Hj, Hpre. repeat (rewrite <- app_assoc; cbn [app]). rewrite qscan_par, Hpar. reflexivity. }
      rewrite Hqs. destruct e; cbn [negb andb].
      * specialize (IH (Inside false) false start stop key vs last l braces idx up Hj'). apply IH. constructor; try assumption.
        -- split; [reflexivity|]. exists p, (s ++ [34]). rewrite Hpre, <- app_assoc, par_snoc. auto.
        -- rewrite length_snoc. lia.
        -- apply (from_here_step (Inside true) pre vs 34 Hvs).
        -- apply (brackets_step (Inside true) pre braces 34 Hbr).
      * specialize (IH Outside false start (length pre) key vs last l braces idx up Hj'). apply IH. constructor; try assumption.
        -- symmetry. apply Nat.ltb_ge. rewrite Hpre, Hst. len.
        -- rewrite length_snoc. lia.
        -- apply (from_here_step (Inside false) pre vs 34 Hvs).
        -- apply (brackets_step (Inside false) pre braces 34 Hbr).
    + cbn [next]. replace (c =? 34) with false by (symmetry; apply N.eqb_neq; exact Hq). cbn [andb].
      specialize (IH (Inside ((c =? 92) && negb e)) false start stop key vs last l braces idx up Hj'). apply IH. constructor; try assumption.
      * split; [reflexivity|]. exists p, (s ++ [c]). split; [rewrite Hpre, <- app_assoc; reflexivity|]. split; [exact Hst|]. rewrite par_snoc, Hpar. destruct (c =? 92); reflexivity.
      * rewrite length_snoc. lia.
      * pose proof (from_here_step (Inside e) pre vs c Hvs) as H. cbn [next] in H. replace (c =? 34) with false in H by (symmetry; apply N.eqb_neq; exact Hq). exact H.
      * pose proof (brackets_step (Inside e) pre braces c Hbr) as H. cbn [next] in H. replace (c =? 34) with false in H by (symmetry; apply N.eqb_neq; exact Hq). exact H.
Qed.

(** ** Parse *)
Lemma skip_blank t : forall i,
  (forallb blank t = true /\ skip_space t i = Panic) \/
  (exists ws r, t = ws ++ r /\ forallb blank ws = true /\ forallb blank t = false /\ skip_space t i = Ok (i + length ws)%nat).
Proof.
  induction t as [|c t IH]; intro i; [left; split; reflexivity|]. cbn [forallb skip_space]. change (space c) with (blank c). destruct (blank c) eqn:E; cbn [andb].
  - destruct (IH (S i)) as [[H1 H2]|(ws & r & -> & H1 & H2 & H3)]; [left; split; assumption|]. right. exists (c :: ws), r. cbn [forallb]. rewrite E, H3.
    split; [reflexivity|]. split; [exact H1|]. split; [exact H2|]. cbn [length]. f_equal. lia.
  - right. exists [], (c :: t). repeat split. cbn [length]. f_equal. lia.
Qed.
Lemma blanks_place ws : forallb blank ws = true -> place ws = Outside.
Proof.
  intro H. induction ws as [|c ws IH] using rev_ind; [reflexivity|]. rewrite forallb_app in H. apply andb_true_iff in H. destruct H as [H1 H2].
  rewrite place_snoc, IH by exact H1. cbn [forallb] in H2. rewrite andb_true_r in H2. cbn [next]. destruct (N.eqb_spec c 34) as [->|]; [discriminate H2|reflexivity].
Qed.
Lemma outside_blanks ws r : forallb blank ws = true -> outside Outside (ws ++ r) = ws ++ outside Outside r.
Proof.
  induction ws as [|c ws IH]; intro H; [reflexivity|]. cbn [forallb] in H. apply andb_true_iff in H. destruct H as [H1 H2]. cbn [app outside].
  assert (E : next Outside c = Outside) by (cbn [next]; destruct (N.eqb_spec c 34) as [->|]; [discriminate H1|reflexivity]). rewrite E, IH by exact H2. reflexivity.
Qed.
Lemma bad_blanks ws u : forallb blank ws = true -> forall d e, bad d e (ws ++ u) = bad d e u.
Proof.
  induction ws as [|c ws IH]; intros H d e; [reflexivity|]. cbn [forallb] in H. apply andb_true_iff in H. destruct H as [H1 H2]. cbn [app bad].
  unfold blank in H1. rewrite !orb_true_iff, !N.eqb_eq in H1. assert (G : (c = 32 \/ c = 9) \/ c = 10 \/ c = 13) by tauto.
  destruct G as [[-> | ->]|[-> | ->]]; cbn [N.eqb Pos.eqb opening closing orb]; apply IH; exact H2.
Qed.
Lemma busy_blanks ws u : forallb blank ws = true -> forall l, busy l (ws ++ u) = busy l u.
Proof.
  induction ws as [|c ws IH]; intros H l; [reflexivity|]. cbn [forallb] in H. apply andb_true_iff in H. destruct H as [H1 H2]. cbn [app busy].
  unfold blank in H1. rewrite !orb_true_iff, !N.eqb_eq in H1. assert (G : (c = 32 \/ c = 9) \/ c = 10 \/ c = 13) by tauto.
  destruct G as [[-> | ->]|[-> | ->]]; cbn [N.eqb Pos.eqb opening closing orb]; apply IH; exact H2.
Qed.
Lemma depth_blanks ws u : forallb blank ws = true -> forall d, depth d (ws ++ u) = depth d u.
Proof.
  induction ws as [|c ws IH]; intros H d; [reflexivity|]. cbn [forallb] in H. apply andb_true_iff in H. destruct H as [H1 H2]. cbn [app depth].
  unfold blank in H1. rewrite !orb_true_iff, !N.eqb_eq in H1. assert (G : (c = 32 \/ c = 9) \/ c = 10 \/ c = 13) by tauto.
  destruct G as [[-> | ->]|[-> | ->]]; cbn [opening closing N.eqb Pos.eqb orb]; apply IH; exact H2.
Qed.

Definition starts_blank (t : bytes) : bool := match t with c :: _ => blank c | [] => false end.
Lemma pCore_outcome t : (2 <= length t)%nat -> forallb blank t = false ->
  outcome (pCore t) 0 (starts_blank t) false [Fr [] [] []] (skeleton t).
Proof.
  intros Hlen Hb. unfold pCore. replace (length t <? 2)%nat with false by (symmetry; apply Nat.ltb_ge; exact Hlen).
  destruct (skip_blank t 0) as [[H _]|(ws & r & Ht & H1 & _ & H3)]; [congruence|]. rewrite H3. cbn [bind Nat.add].
  assert (Hr : skipn (length ws) t = r) by (rewrite Ht; apply skipn_length_app). rewrite Hr.
  assert (Es : starts_blank t = (0 <? length ws)%nat).
  { rewrite Ht in *. destruct ws as [|c ws]; [|cbn [app starts_blank length]; cbn [forallb] in H1; apply andb_true_iff in H1; apply H1].
    cbn [app length]. destruct r as [|c r]; [reflexivity|]. cbn [app skip_space] in H3. change (space c) with (blank c) in H3. cbn [starts_blank].
    destruct (blank c); [|reflexivity]. exfalso. destruct (skip_blank r 1) as [[_ E]|(w & q & _ & _ & _ & E)]; rewrite E in H3; [discriminate H3|]. injection H3 as H3. lia. }
  pose proof (loop_outcome t r ws Outside (starts_blank t) (length ws) 0 [] 0 0 false [] [0%nat] [Fr [] [] []] Ht) as H.
  unfold skeleton. rewrite Ht at 3. rewrite outside_blanks by exact H1. unfold outcome in *. rewrite bad_blanks, busy_blanks, depth_blanks by exact H1. apply H.
  constructor.
  - exact Es.
  - lia.
  - exists [], ws. split; [reflexivity|]. split; [reflexivity|]. apply blanks_place. exact H1.
  - constructor.
  - reflexivity.
  - reflexivity.
  - repeat constructor.
  - intros _. left. auto.
Qed.

Lemma over_zero u : over 0 u <-> overclosed u. Proof. reflexivity. Qed.
Lemma starts_spec t : starts_blank t = true <-> begins_blank t.
Proof.
  destruct t as [|c t]; [split; [discriminate|intros (c & r & E & _); discriminate E]|]. cbn [starts_blank]. split.
  - intro H. exists c, t. auto.
  - intros (x & r & E & H). injection E as <- <-. exact H.
Qed.

Theorem parse_panics t : Parse t = Panic <->
  (2 <= length t)%nat /\ (forallb blank t = true \/ overclosed (skeleton t) \/ (begins_blank t /\ early_colon (skeleton t))).
Proof.
  destruct (Nat.ltb_spec (length t) 2) as [Hl|Hl].
  { split; [|lia]. unfold Parse, pCore. rewrite (proj2 (Nat.ltb_lt _ _) Hl). discriminate. }
  destruct (forallb blank t) eqn:Hb.
  { split; [auto|intros _]. unfold Parse, pCore. replace (length t <? 2)%nat with false by (symmetry; apply Nat.ltb_ge; exact Hl).
    destruct (skip_blank t 0) as [[_ E]|(ws & r & _ & _ & E & _)]; [rewrite E; reflexivity|congruence]. }
  pose proof (pCore_outcome t Hl Hb) as H. unfold Parse. rewrite <- starts_spec, <- over_zero. pose proof (bad_spec (skeleton t) 0 (starts_blank t)) as HB.
  unfold outcome in H. destruct (pCore t) as [ns|e|]; cbn [bind].
  - destruct H as (H1 & _). rewrite H1 in HB. destruct ns; (split; [discriminate|]); intros [_ [H|H]]; [discriminate H| |discriminate H|];
      assert (false = true) by tauto; discriminate.
  - contradiction.
  - rewrite H in HB. tauto.
Qed.
Theorem parse_fails t e : Parse t = Err e <->
  e = EBadJSON 0 /\ ((length t < 2)%nat \/ (Parse t <> Panic /\ ~ eventful (skeleton t))).
Proof.
  destruct (Nat.ltb_spec (length t) 2) as [Hl|Hl].
  { unfold Parse, pCore. rewrite (proj2 (Nat.ltb_lt _ _) Hl). cbn [bind]. split; [intro H; injection H as <-; auto|intros [-> _]; reflexivity]. }
  destruct (forallb blank t) eqn:Hb.
  { assert (E : Parse t = Panic) by (apply parse_panics; auto). rewrite E. split; [discriminate|]. intros [_ [H|[H _]]]; [lia|congruence]. }
  pose proof (pCore_outcome t Hl Hb) as H. unfold Parse. pose proof (busy_spec (skeleton t) false) as HB. unfold outcome in H.
  assert (HE : eventful (skeleton t) <-> busy false (skeleton t) = true).
  { rewrite HB. unfold eventful. split; intros [K|(u1 & u2 & E & K)]; [left; exact K|right; exists u1, u2; auto|left; exact K|right; exists u1, u2].
    destruct K as [K|K]; [discriminate K|auto]. }
  assert (Hnn : no_node [Fr [] [] []]) by (eexists; split; reflexivity).
  destruct (pCore t) as [ns|e'|]; cbn [bind].
  - destruct H as (_ & _ & _ & H4). destruct ns as [|n ns].
    + destruct (proj1 H4 eq_refl) as [_ Hf]. split.
      * intro E. injection E as <-. split; [reflexivity|]. right. split; [discriminate|]. rewrite HE. congruence.
      * intros [-> _]. reflexivity.
    + split; [discriminate|]. intros [_ [K|[_ K]]]; [lia|]. rewrite HE in K. assert (Hf : busy false (skeleton t) = false) by (destruct (busy false (skeleton t)); [tauto|reflexivity]).
      discriminate (proj2 H4 (conj Hnn Hf)).
  - contradiction.
  - split; [discriminate|]. intros [_ [K|[K _]]]; [lia|congruence].
Qed.

(** ** Reading what was parsed *)
Lemma parse_weak t p : Parse t = Ok p -> p_json p = t /\ weak (p_core p) /\ (balanced (skeleton t) -> strong (p_core p)).
Proof.
  intro HP. assert (Hl : (2 <= length t)%nat).
  { destruct (Nat.ltb_spec (length t) 2) as [Hl|Hl]; [|exact Hl]. unfold Parse, pCore in HP. rewrite (proj2 (Nat.ltb_lt _ _) Hl) in HP. discriminate HP. }
  assert (Hb : forallb blank t = false).
  { destruct (forallb blank t) eqn:Hb; [|reflexivity]. assert (E : Parse t = Panic) by (apply parse_panics; auto). congruence. }
  pose proof (pCore_outcome t Hl Hb) as H. unfold Parse in HP. unfold outcome in H. destruct (pCore t) as [ns|e|]; cbn [bind] in HP; try discriminate HP.
  destruct ns as [|n ns]; [discriminate HP|]. injection HP as <-. destruct H as (H1 & H2 & H3 & _). cbn [p_json p_core]. split; [reflexivity|].
  split; [exact (Forall_inv H2)|]. intro HB. apply (Forall_inv (P := strong) (l := ns)). apply H3.
  assert (Hno : ~ over 0 (skeleton t)) by (intro K; assert (bad 0 (starts_blank t) (skeleton t) = true) by (apply bad_spec; left; exact K); congruence).
  pose proof (depth_spec (skeleton t) 0 Hno) as HD. unfold balanced in HB. lia.
Qed.
Lemma clean_paired v : paired v -> cleanValue v <> Panic.
Proof.
  intros Hp. destruct v as [|c0 v0] eqn:Ev; [discriminate|]. rewrite <- Ev in *. clear Ev c0 v0.
  assert (Htrim : forall s, exists ws, s = ws ++ trim1 s /\ forallb blank ws = true).
  { induction s as [|c s IH]; [exists []; split; reflexivity|]. cbn [trim1]. destruct s as [|c1 s]; [exists []; split; reflexivity|].
    change (space c) with (blank c). destruct (blank c) eqn:E; [|exists []; split; reflexivity]. destruct IH as (ws & Hs & Hw). exists (c :: ws). cbn [app forallb].
    rewrite E, Hw, <- Hs. split; reflexivity. }
  unfold cleanValue. destruct v as [|c0 v0]; [discriminate|]. set (v := c0 :: v0) in *.
  destruct (Htrim v) as (ws & Hv & Hws). destruct (Htrim (rev (trim1 v))) as (ws2 & Hv2 & Hws2). set (t := rev (trim1 (rev (trim1 v)))) in *.
  destruct ((hd 0 t =? 34) && (last t 0 =? 34)) eqn:Eq; [|discriminate]. destruct t as [|c [|c1 r]] eqn:Et; [discriminate Eq| |discriminate].
  apply andb_true_iff in Eq. destruct Eq as [Eq _]. cbn [hd] in Eq. apply N.eqb_eq in Eq.
  assert (E : v = ws ++ [34] ++ rev ws2).
  { rewrite Hv at 1. f_equal. rewrite <- (rev_involutive (trim1 v)), Hv2, rev_app_distr. subst t. rewrite Et, Eq. reflexivity. }
  exfalso. unfold paired, place in Hp. rewrite E, !fold_left_app in Hp. assert (Hw : fold_left next ws Outside = Outside) by (apply blanks_place; exact Hws).
  rewrite Hw in Hp. cbn [fold_left next N.eqb Pos.eqb] in Hp.
  assert (K : forall w, forallb blank w = true -> fold_left next w (Inside false) = Inside false).
  { induction w as [|x w IHw]; intro Hx; [reflexivity|]. cbn [forallb] in Hx. apply andb_true_iff in Hx. destruct Hx as [Hx1 Hx2]. cbn [fold_left].
    assert (En : next (Inside false) x = Inside false).
    { cbn [next]. destruct (N.eqb_spec x 34) as [->|]; [discriminate Hx1|]. destruct (N.eqb_spec x 92) as [->|]; [discriminate Hx1|]. reflexivity. }
    rewrite En. apply IHw. exact Hx2. }
  rewrite K in Hp; [discriminate Hp|]. apply forallb_forall. intros x Hx. apply in_rev in Hx. rewrite forallb_forall in Hws2. auto.
Qed.
Lemma find_in x ns n : find_node x ns = Some n -> In n ns.
Proof. induction ns as [|m ns IH]; cbn [find_node]; [discriminate|]. destruct (bytes_eqb _ _); intro H; [injection H as ->; left; reflexivity|right; auto]. Qed.
Lemma walk_weak p : forall n m, weak n -> n_walk n p = Ok m -> weak m.
Proof.
  induction p as [|x p IH]; intros n m Hn; cbn [n_walk]; [intro H; injection H as <-; exact Hn|]. destruct (find_node x (n_down n)) as [c|] eqn:E; [|discriminate].
  apply IH. destruct n as [l v d]. apply weak_node in Hn. destruct Hn as [_ Hn]. rewrite Forall_forall in Hn. apply Hn. apply find_in in E. exact E.
Qed.
Lemma walk_strong p : forall n m, strong n -> n_walk n p = Ok m -> strong m.
Proof.
  induction p as [|x p IH]; intros n m Hn; cbn [n_walk]; [intro H; injection H as <-; exact Hn|]. destruct (find_node x (n_down n)) as [c|] eqn:E; [|discriminate].
  apply IH. destruct n as [l v d]. apply strong_node in Hn. destruct Hn as (_ & _ & Hn). rewrite Forall_forall in Hn. apply Hn. apply find_in in E. exact E.
Qed.
Lemma walk_no_panic p : forall n, n_walk n p <> Panic.
Proof. induction p as [|x p IH]; intro n; cbn [n_walk]; [discriminate|]. destruct (find_node x (n_down n)); [apply IH|discriminate]. Qed.

Theorem parsed_get t p path : Parse t = Ok p -> P_Get p path <> Panic.
Proof.
  intro HP. destruct (parse_weak t p HP) as (_ & Hw & _). destruct path as [|x path]; [discriminate|]. unfold P_Get.
  destruct (n_walk (p_core p) (x :: path)) as [m|e|] eqn:E; cbn [bind]; [|discriminate|exact (fun _ => walk_no_panic _ _ E)].
  apply clean_paired. pose proof (walk_weak _ _ _ Hw E) as Hm. destruct m as [l v d]. apply weak_node in Hm. exact (proj1 Hm).
Qed.

Lemma dive_strong n : strong n -> n_down n <> [] -> exists c r, dive n = Ok (c :: r) /\ opening c = true.
Proof.
  induction n as [l v d IH] using node_ind'. intros Hn Hd. cbn [n_down] in Hd. apply strong_node in Hn. destruct Hn as (_ & Hv & Hs). destruct (Hv Hd) as (c & r & -> & Hc).
  assert (G : exists items, (fix go (ds : list node) : res bytes :=
           match ds with
           | [] => Ok []
           | (Node l v dd as d) :: r =>
               do val <- (match dd with [] => Ok v | _ => dive d end);
               do rest <- go r;
               Ok ((if c =? 123 then packKeyValue l val else []) ++ (if c =? 91 then val else []) ++ 44 :: rest)
           end) d = Ok items /\ (d <> [] -> items <> [])).
  { clear Hd Hv. induction d as [|x d IHd]; [exists []; split; [reflexivity|intros H; destruct (H eq_refl)]|].
    destruct x as [xl xv xd]. pose proof (Forall_inv Hs) as Hx. destruct (IHd (Forall_inv_tail IH) (Forall_inv_tail Hs)) as (items & E & _). rewrite E.
    assert (Hval : exists val, match xd with [] => Ok xv | _ => dive (Node xl xv xd) end = Ok val).
    { destruct xd as [|y xd]; [eexists; reflexivity|]. destruct (Forall_inv IH Hx ltac:(discriminate)) as (c' & r' & E' & _). rewrite E'. eexists. reflexivity. }
    destruct Hval as (val & ->). cbn [bind]. eexists. split; [reflexivity|]. intros _ K. apply app_eq_nil in K. destruct K as [_ K]. apply app_eq_nil in K. destruct K as [_ K]. discriminate K. }
  destruct G as (items & E & Hi). cbn [dive]. unfold at_. cbn [nth_error bind]. rewrite E. cbn [bind]. specialize (Hi Hd). destruct items as [|x items]; [contradiction|].
  exists c. eexists. split; [|exact Hc]. cbn [removelast app]. reflexivity.
Qed.
Lemma clean_opening c r : opening c = true -> cleanValue (c :: r) <> Panic.
Proof.
  intro Hc. assert (Hb : blank c = false).
  { unfold opening in Hc. apply orb_true_iff in Hc. destruct Hc as [Hc|Hc]; apply N.eqb_eq in Hc; rewrite Hc; reflexivity. }
  assert (Ht : trim1 (c :: r) = c :: r) by (cbn [trim1]; change (space c) with (blank c); rewrite Hb; destruct r; reflexivity).
  unfold cleanValue. rewrite Ht. set (t := rev (trim1 (rev (c :: r)))). assert (Hh : hd 0 t = c).
  { assert (K : forall s x, blank x = false -> exists s', trim1 (s ++ [x]) = s' ++ [x]).
    { induction s as [|y s IHs]; intros x Hx; [exists []; reflexivity|]. cbn [app trim1]. destruct (s ++ [x]) as [|z q] eqn:E; [destruct s; discriminate E|].
      destruct (space y); [|exists (y :: s); cbn [app]; rewrite E; reflexivity]. rewrite <- E. apply IHs. exact Hx. }
    unfold t. cbn [rev]. destruct (K (rev r) c Hb) as (s' & ->). rewrite rev_app_distr. reflexivity. }
  rewrite Hh. assert (Hq : c =? 34 = false) by (destruct (N.eqb_spec c 34) as [->|]; [discriminate Hc|reflexivity]). rewrite Hq. discriminate.
Qed.
Theorem parsed_get_new t p path : Parse t = Ok p -> balanced (skeleton t) -> P_GetNew p path <> Panic.
Proof.
  intros HP HB. destruct (parse_weak t p HP) as (_ & _ & Hs). specialize (Hs HB). unfold P_GetNew.
  destruct (n_walk (p_core p) path) as [m|e|] eqn:E; [|discriminate|exact (fun _ => walk_no_panic _ _ E)].
  pose proof (walk_strong _ _ _ Hs E) as Hm. destruct m as [l v d]. destruct d as [|x d].
  - apply clean_paired. apply strong_node in Hm. apply Hm.
  - destruct (dive_strong _ Hm ltac:(discriminate)) as (c & r & Ed & Hc). cbn [n_down]. rewrite Ed. cbn [bind]. apply clean_opening. exact Hc.
Qed.
Theorem parsed_numbers {F : Type} (ff : bytes -> option F) t p path : Parse t = Ok p ->
  P_GetInt p path <> Panic /\ P_GetBool p path <> Panic /\ P_GetFloat ff p path <> Panic.
Proof.
  intro HP. pose proof (parsed_get t p path HP) as H. unfold P_GetInt, P_GetBool, P_GetFloat, P_GetString.
  destruct (P_Get p path) as [v|e|]; cbn [bind]; [|repeat split; discriminate|contradiction].
  unfold GetInt, GetBool, GetFloat, GetString, Get. cbn [bind]. repeat split.
  - destruct (atoi v); discriminate.
  - destruct (bytes_eqb v (b "true")); [discriminate|]. destruct (bytes_eqb v (b "false")); discriminate.
  - destruct (ff v); discriminate.
Qed.

(** ** Putting in any bytes *)
Theorem set_overclosed p v path x : path <> [] -> P_Get p path = Ok x -> opens v = true -> overclosed (skeleton v) -> P_Set p v path = PPanic.
Proof.
  intros Hp Hg Ho Hc. destruct path as [|k path]; [contradiction|]. unfold P_Get in Hg. unfold P_Set.
  destruct (n_walk (p_core p) (k :: path)) as [n|e|]; cbn [bind] in Hg; try discriminate Hg. cbn [p_bind]. rewrite Ho.
  assert (Hl : (2 <= length v)%nat).
  { destruct v as [|c [|c1 v]]; [discriminate Ho| |cbn; lia]. exfalso. cbn [opens] in Ho. apply over_zero in Hc. apply (bad_spec _ 0 false) in Hc || idtac.
    assert (K : bad 0 false (skeleton [c]) = true) by (apply bad_spec; left; exact Hc).
    change (is_open c) with (opening c) in Ho. unfold skeleton in K. cbn [outside bad] in K. rewrite Ho in K. destruct (c =? 34); discriminate K. }
  rewrite (proj2 (Nat.leb_le _ _) Hl). cbn [andb].
  assert (E : Parse v = Panic) by (apply parse_panics; auto). unfold Parse in E. destruct (pCore v) as [ns|e|]; cbn [bind] in E; [destruct ns; discriminate E|discriminate E|reflexivity].
Qed.
