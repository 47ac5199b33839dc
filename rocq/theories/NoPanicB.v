(** No panic, second part: SetKey, the iteration over arrays, the type tests, and what only holds of documents. *)
From Coq Require Import String.
From Verif Require Import GoStd Json Core Errors Api Iter Skip Focus CoreProofs NoPanic.

Local Open Scope N_scope.

(** ** Two paths that differ in their last element only *)
Lemma key_last json path : forall rest i resume k level inq s e st k' st', S k = length path ->
  key_loop json path rest i resume k level false inq s e st = Ok (k', st') -> keyst st' <> None /\ S k' = length path.
Proof.
  induction rest as [|c r IH]; intros i resume k level inq s e st k' st' Hk H; cbn [key_loop] in H; [discriminate|].
  rewrite Hk, Nat.eqb_refl in H. rewrite <- Hk in H.
  repeat match type of H with
         | (if ?x then _ else _) = _ => destruct x
         | match ?x with _ => _ end = _ => destruct x
         | (let x := _ in _) = _ => cbv zeta in H
         | Ok _ = Ok _ => injection H as <- <-; cbn [keyst]; split; [discriminate|exact Hk]
         | Err _ = _ => discriminate
         | key_loop _ _ _ _ _ _ _ _ _ _ _ _ = _ => eapply IH; [exact Hk|exact H]
         end.
Qed.

Section Sim.
  Variables (json : bytes) (p1 p2 : list bytes).
  Hypothesis HL : length p1 = length p2.
  Hypothesis HN : forall j, S j <> length p2 -> nth_error p1 j = nth_error p2 j.

  Definition sim (k : nat) (st1 st2 : cst) : Prop :=
    offset st1 = offset st2 /\ brace st1 = brace st2 /\ keyst st1 = None /\ keyst st2 = None /\
    (S k <> length p2 -> st1 = st2).

  Lemma nth_sim k x y : nth_error p1 (S k) = Some x -> nth_error p2 (S k) = Some y -> S (S k) <> length p2 -> x = y.
  Proof. intros H1 H2 H. rewrite (HN _ H), H2 in H1. congruence. Qed.

  Lemma nth_both k y : nth_error p2 k = Some y -> exists x, nth_error p1 k = Some x.
  Proof.
    intro H. destruct (nth_error p1 k) eqn:E; [eauto|]. apply nth_error_None in E. apply nth_error_ext in H. lia.
  Qed.

  Lemma key_sim : forall rest i resume k level found inq s e st1 st2 k' st2', sim k st1 st2 ->
    (found = true -> S k <> length p2) ->
    key_loop json p2 rest i resume k level found inq s e st2 = Ok (k', st2') ->
    (keyst st2' <> None /\ S k' = length p2) \/
    (S k' <> length p2 /\ exists st1', key_loop json p1 rest i resume k level found inq s e st1 = Ok (k', st1') /\ sim (S k') st1' st2').
  Proof.
    induction rest as [|c r IH]; intros i resume k level found inq s e st1 st2 k' st2' Hs Hf H.
    - cbn [key_loop] in *. destruct found; [|discriminate]. injection H as <- <-. right. specialize (Hf eq_refl).
      split; [exact Hf|]. exists st1. split; [reflexivity|]. destruct Hs as (S1 & S2 & S3 & S4 & S5).
      repeat split; auto.
    - destruct (Nat.eq_dec (S k) (length p2)) as [Hk|Hk].
      { left. destruct found; [exfalso; exact (Hf eq_refl Hk)|]. eapply key_last; [exact Hk|exact H]. }
      destruct Hs as (S1 & S2 & S3 & S4 & S5). specialize (S5 Hk). subst st2. clear S1 S2 S4.
      assert (Hs : sim k st1 st1) by (repeat split; auto).
      cbn [key_loop] in *.
      rewrite HL. rewrite (proj2 (Nat.eqb_neq _ _) Hk) in *.
      repeat match type of H with
             | (if ?x then _ else _) = _ => destruct x eqn:?
             | (let x := _ in _) = _ => cbv zeta in H |- *
             | Err _ = _ => discriminate
             | Panic = _ => discriminate
             | key_loop _ _ _ _ _ _ _ found _ _ _ st1 = _ => eapply IH; [exact Hs|exact Hf|exact H]
             | key_loop _ _ _ _ _ _ _ false _ _ _ st1 = _ => eapply IH; [exact Hs|discriminate|exact H]
             | match qscan ?x ?y with _ => _ end = _ => destruct (qscan x y) as [[]|]
             | match jump_loop ?x ?y ?z ?u ?v ?w with _ => _ end = _ => destruct (jump_loop x y z u v w)
             end.
      + eapply IH; [exact Hs|exact Hf|exact H].
      + eapply IH; [|intros _; exact Hk|exact H]. repeat split; auto.
      + destruct (nth_error p2 (S k)) as [y|] eqn:Ey; [|discriminate]. injection H as <- <-.
        destruct (nth_both _ _ Ey) as [x Ex]. rewrite Ex. right. split; [exact Hk|].
        eexists. split; [reflexivity|]. unfold sim. cbn [offset brace keyst]. repeat split; auto.
        intro Hkk. rewrite (nth_sim _ _ _ Ex Ey Hkk). reflexivity.
      + destruct (nth_error p2 (S k)) as [y|] eqn:Ey; [|discriminate].
        destruct (nth_both _ _ Ey) as [x Ex]. rewrite Ex.
        eapply IH; [|discriminate|exact H]. unfold sim. cbn [offset brace keyst]. repeat split; auto.
        intro Hkk. rewrite (nth_sim _ _ _ Ex Ey Hkk). reflexivity.
  Qed.

  Lemma arr_sim k st st2 : S k <> length p2 -> keyst st = None -> arr_step json p2 k st = Ok st2 ->
    exists st1, arr_step json p1 k st = Ok st1 /\ sim (S k) st1 st2.
  Proof.
    intros Hk Hs. unfold arr_step. rewrite HL, (proj2 (Nat.eqb_neq _ _) Hk).
    destruct (atoi (cur st)) as [idx|]; [|discriminate]. destruct (idx =? 0)%Z.
    - destruct (arr0_loop (skipn (S (offset st)) json) (S (offset st)) false) as [oo| |]; cbn [bind]; [|discriminate|discriminate].
      destruct oo as [[i c]|].
      + destruct (nth_error p2 (S k)) as [y|] eqn:Ey; [|discriminate]. intros [= <-].
        destruct (nth_both _ _ Ey) as [x Ex]. rewrite Ex. eexists. split; [reflexivity|].
        unfold sim. cbn [offset brace keyst]. repeat split; auto. intro Hkk. rewrite (nth_sim _ _ _ Ex Ey Hkk). reflexivity.
      + intros [= <-]. eexists. split; [reflexivity|]. unfold sim. cbn [offset brace keyst]. repeat split; auto.
    - destruct (arr_loop json (skipn (offset st) json) (offset st) false idx 0 false false 0) as [oo| |]; cbn [bind]; [|discriminate|discriminate].
      destruct oo as [off|i c|].
      + intros [= <-]. eexists. split; [reflexivity|]. unfold sim. cbn [offset brace keyst]. repeat split; auto.
      + destruct (nth_error p2 (S k)) as [y|] eqn:Ey; [|discriminate]. intros [= <-].
        destruct (nth_both _ _ Ey) as [x Ex]. rewrite Ex. eexists. split; [reflexivity|].
        unfold sim. cbn [offset brace keyst]. repeat split; auto. intro Hkk. rewrite (nth_sim _ _ _ Ex Ey Hkk). reflexivity.
      + intros [= <-]. exists st. split; [reflexivity|]. repeat split; auto.
  Qed.

  Definition no_key {A} (r : res A) : Prop := match r with Err e => err_equal (Some e) 8 = false | _ => True end.

  Lemma arr_step_no_key path k st : no_key (arr_step json path k st).
  Proof.
    assert (A0 : forall last rest i, no_key (arr0_loop rest i last)).
    { clear. intros last. induction rest as [|c r IH]; intro i; cbn [arr0_loop]; [exact I|].
      destruct (space c); [apply IH|]. destruct (is_open c); [exact I|]. destruct last; [exact I|].
      unfold no_key. rewrite err_equal_spec; reflexivity. }
    assert (A1 : forall last target rest i level inq found cnt, no_key (arr_loop json rest i last target level inq found cnt)).
    { clear. intros last target. induction rest as [|c r IH]; intros; cbn [arr_loop].
      - destruct found; [exact I|]. unfold no_key. rewrite err_equal_spec; reflexivity.
      - repeat match goal with
               | |- no_key (if ?x then _ else _) => destruct x
               | |- no_key (let x := _ in _) => cbv zeta
               end; try apply IH; try exact I; unfold no_key; rewrite err_equal_spec; reflexivity. }
    unfold arr_step. destruct (atoi (cur st)) as [idx|]; [|unfold no_key; rewrite err_equal_spec; reflexivity].
    destruct (idx =? 0)%Z.
    - specialize (A0 (S k =? length path)%nat (skipn (S (offset st)) json) (S (offset st))).
      destruct (arr0_loop (skipn (S (offset st)) json) (S (offset st)) (S k =? length path)%nat) as [[[i c]|]| |]; cbn [bind]; try exact I.
      + destruct (S k =? length path)%nat; [exact I|]. destruct (nth_error path (S k)); exact I.
      + exact A0.
    - specialize (A1 (S k =? length path)%nat idx (skipn (offset st) json) (offset st) O false false O).
      destruct (arr_loop json (skipn (offset st) json) (offset st) (S k =? length path)%nat idx 0 false false 0) as [[|i c|]| |]; cbn [bind]; try exact I.
      + destruct (nth_error path (S k)); exact I.
      + exact A1.
  Qed.

  Lemma OUT_sim : forall n k st1 st2 st2', (length p2 - k = n)%nat -> (k < length p2)%nat -> sim k st1 st2 ->
    OUT json p2 k st2 = Ok st2' -> keyst st2' <> None \/ no_key (OUT json p1 k st1).
  Proof.
    intro n. induction n as [n IH] using (well_founded_induction lt_wf). intros k st1 st2 st2' Hn Hk Hs H.
    pose proof Hs as (S1 & S2 & S3 & S4 & S5).
    destruct (N.eq_dec (brace st2) 91) as [Hb|Hb].
    - rewrite OUT_arr in H by assumption. rewrite OUT_arr by (congruence || lia).
      destruct (Nat.eq_dec (S k) (length p2)) as [Hl|Hl].
      + right. pose proof (arr_step_no_key p1 k st1) as NK.
        destruct (arr_step json p1 k st1); cbn [bind]; [|exact NK|exact NK]. rewrite OUT_end by lia. exact I.
      + specialize (S5 Hl). subst st2. destruct (arr_step json p2 k st1) as [s2| |] eqn:E; cbn [bind] in H; try discriminate.
        destruct (arr_sim k st1 s2 Hl S3 E) as (s1 & E1 & Hs1). rewrite E1. cbn [bind].
        eapply (IH (length p2 - S k)%nat ltac:(lia) (S k)); [reflexivity|lia|exact Hs1|exact H].
    - rewrite OUT_key in H by assumption. rewrite OUT_key by (congruence || lia). unfold RK in *.
      rewrite S1.
      destruct (key_loop json p2 (skipn (offset st2) json) (offset st2) 0 k k false false 0 0 st2) as [[k' s2]| |] eqn:E;
        cbn [bind] in H; try discriminate.
      pose proof (key_loop_ge _ _ _ _ _ _ _ _ _ _ _ _ _ _ E) as Hge.
      assert (F : false = true -> S k <> length p2) by discriminate.
      destruct (key_sim _ _ _ _ _ _ _ _ _ st1 st2 k' s2 Hs F E) as [[Hy Hl]|(Hl & s1 & E1 & Hs1)].
      + left. rewrite OUT_end in H by lia. injection H as <-. exact Hy.
      + rewrite E1. cbn [bind].
        destruct (le_lt_dec (length p2) (S k')) as [Hle|Hlt].
        * rewrite OUT_end by lia. right. exact I.
        * eapply (IH (length p2 - S k')%nat ltac:(lia) (S k')); [reflexivity|lia|exact Hs1|exact H].
  Qed.
End Sim.

Lemma value_end_no_key json ks off : no_key (value_end json ks off).
Proof.
  unfold value_end, at_. destruct (nth_error json off) as [c|]; cbn [bind]; [|exact I].
  repeat match goal with
         | |- no_key (if ?x then _ else _) => destruct x
         | |- no_key (match ?x with _ => _ end) => destruct x
         end; try exact I; unfold no_key; rewrite err_equal_spec; reflexivity.
Qed.

Lemma core_sim json q x y ks s e : ended json -> core json false (q ++ [y]) = Ok (ks, s, e) ->
  ks <> None \/ no_key (core json false (q ++ [x])).
Proof.
  intro EN. unfold core. destruct (length json <? 2)%nat; [discriminate|].
  assert (HL : length (q ++ [x]) = length (q ++ [y])) by (rewrite !app_length; reflexivity).
  assert (HN : forall j, S j <> length (q ++ [y]) -> nth_error (q ++ [x]) j = nth_error (q ++ [y]) j).
  { intros j Hj. rewrite app_length in Hj. cbn [length] in Hj. destruct (lt_dec j (length q)) as [H|H].
    - rewrite !nth_error_app1 by exact H. reflexivity.
    - rewrite (proj2 (nth_error_None _ _)), (proj2 (nth_error_None _ _)); rewrite ?app_length; cbn [length]; try reflexivity; lia. }
  destruct (skip_space_inv json json 0 eq_refl (proj1 EN)) as (o & c & E & Ho & Hc & Hs & _). rewrite E. cbn [bind].
  unfold at_ at 1 2. rewrite Hc. cbn [bind].
  destruct (q ++ [y]) as [|y0 py] eqn:Ey; [destruct q; discriminate|].
  destruct (q ++ [x]) as [|x0 px] eqn:Ex; [destruct q; discriminate|].
  assert (Hsim : sim (y0 :: py) 0 (CSt o c x0 None) (CSt o c y0 None)).
  { unfold sim. cbn [offset brace keyst]. repeat split; auto. intro Hne.
    pose proof (HN 0%nat Hne) as E0. cbn in E0. injection E0 as ->. reflexivity. }
  destruct (outer json (y0 :: py) (y0 :: py) 0 0 (CSt o c y0 None)) as [st2| |] eqn:E2; cbn [bind]; try discriminate.
  assert (H0 : (0 < length (y0 :: py))%nat) by (cbn [length]; lia).
  pose proof (OUT_sim json _ _ HL HN _ 0%nat _ _ st2 eq_refl H0 Hsim E2) as OS.
  destruct (offset st2 =? 0)%nat; [discriminate|].
  destruct (skip_space (skipn (offset st2) json) (offset st2)) as [off| |] eqn:Eo; cbn [bind]; try discriminate.
  intro H. destruct (value_end_inv json (keyst st2) off) as [_ HV].
  { unfold value_end, at_ in H. destruct (nth_error json off) eqn:En; [|discriminate]. eapply nth_error_ext; exact En. }
  apply HV in H. destruct H as (-> & _). destruct OS as [OS|OS]; [left; exact OS|right].
  unfold OUT in OS. cbn [skipn] in OS.
  destruct (outer json (x0 :: px) (x0 :: px) 0 0 (CSt o c x0 None)) as [st1| |]; cbn [bind]; [|exact OS|exact I].
  destruct (offset st1 =? 0)%nat; [unfold no_key; rewrite err_equal_spec; reflexivity|].
  assert (SN : forall rest i, no_key (skip_space rest i)).
  { clear. induction rest as [|d r IH]; intro i; cbn [skip_space]; [exact I|]. destruct (space d); [apply IH|exact I]. }
  specialize (SN (skipn (offset st1) json) (offset st1)).
  destruct (skip_space (skipn (offset st1) json) (offset st1)); cbn [bind]; [apply value_end_no_key|exact SN|exact I].
Qed.

Lemma setkey_loop_ok json bound : (bound <= length json)%nat -> forall n rest i, (length rest <= n)%nat ->
  (rest = skipn i json) -> setkey_loop rest i bound <> Panic /\
  forall j, setkey_loop rest i bound = Ok (Some j) -> (j < length json)%nat.
Proof.
  intros Hb. induction n as [|n IH]; intros rest i Hn Hr; destruct rest as [|c r]; cbn [setkey_loop length] in *; try lia.
  1,2: assert (Hi : (length json <= i)%nat) by
    (pose proof (f_equal (@length N) Hr) as HL; rewrite skipn_length in HL; cbn in HL; lia);
    rewrite (proj2 (Nat.ltb_ge _ _)) by lia; split; intros; discriminate.
  apply skipn_step in Hr. destruct Hr as [Hc Hr]. pose proof (nth_error_ext _ _ _ Hc) as Hi.
  destruct (i <? bound)%nat; [|split; intros; discriminate].
  destruct (c =? 92).
  - destruct r as [|d r'].
    + assert (Hi2 : (length json <= S i)%nat) by
        (pose proof (f_equal (@length N) Hr) as HL; rewrite skipn_length in HL; cbn in HL; lia).
      rewrite (proj2 (Nat.ltb_ge _ _)) by lia. split; intros; discriminate.
    + apply skipn_step in Hr. destruct Hr as [_ Hr]. apply IH; [cbn in Hn; lia|exact Hr].
  - destruct (c =? 34); [split; [discriminate|]; intros j [= <-]; exact Hi|]. apply IH; [lia|exact Hr].
Qed.

Lemma setkey_no_err bound er : forall n rest i, (length rest <= n)%nat -> setkey_loop rest i bound <> Err er.
Proof.
  induction n as [|n IH]; intros rest i L; destruct rest as [|c r]; cbn [setkey_loop length] in *; try lia;
    try (destruct (i <? bound)%nat; discriminate).
  destruct (i <? bound)%nat; [|discriminate]. destruct (c =? 92).
  - destruct r as [|d r']; [destruct (S (S i) <? bound)%nat; discriminate|]. apply IH. cbn in L. lia.
  - destruct (c =? 34); [discriminate|]. apply IH. lia.
Qed.

Lemma SetKey_total json newKey path : ended json -> SetKey json newKey path <> UPanic.
Proof.
  intro EN. unfold SetKey. destruct newKey as [|n0 nk]; [discriminate|]. set (new := n0 :: nk).
  destruct path as [|p0 path0] eqn:Ep; [discriminate|]. rewrite <- Ep.
  assert (Hne : path <> []) by (rewrite Ep; discriminate).
  pose proof (core_total json EN false (removelast path ++ [new]) (app_not_nil _ _)) as NP.
  destruct (core json false (removelast path ++ [new])) as [?|er|] eqn:E1; [discriminate| |contradiction].
  destruct (err_equal (Some er) 8) eqn:E8; [|discriminate].
  pose proof (core_total json EN false path Hne) as NP2.
  destruct (core json false path) as [[[ks s] e]| |] eqn:E2; cbn [ubind]; [|discriminate|contradiction].
  pose proof (core_range json path ks s e EN Hne E2) as (R1 & R2 & _).
  destruct ks as [ks|].
  - destruct (setkey_loop_ok json s ltac:(lia) _ (skipn ks json) ks (le_n _) eq_refl) as [N1 N2].
    destruct (setkey_loop (skipn ks json) ks s) as [[i|]|er'|] eqn:E3; cbn [pbind]; [| | |contradiction].
    + specialize (N2 i eq_refl). apply replace_ok; [|lia].
      destruct (core_inv json path EN Hne) as (_ & _ & _ & HI). apply HI in E2.
      destruct E2 as (_ & off & (_ & _ & _ & _ & [(-> & _)|?]) & _); lia.
    + intro X. discriminate X.
    + exfalso. exact (setkey_no_err _ _ _ _ _ (le_n _) E3).
  - exfalso. rewrite (app_removelast_last [] Hne) in E2.
    destruct (core_sim json (removelast path) new (last path []) None s e EN E2) as [H|H]; [contradiction|].
    rewrite E1 in H. unfold no_key in H. congruence.
Qed.
