(** What the functions do to arbitrary bytes when they succeed. *)
From Coq Require Import String.
From Verif Require Import GoStd Json SpecSplice Core Errors Api Skip Focus CoreProofs NoPanic ApiProofs Updates.

Local Open Scope N_scope.

(** ** The value found *)
Lemma split_at {A} (l : list A) n : (n <= length l)%nat -> exists p r, l = p ++ r /\ length p = n.
Proof. intro H. exists (firstn n l), (skipn n l). rewrite firstn_skipn, firstn_length. split; [reflexivity|lia]. Qed.
Lemma split_nth {A} (l : list A) i c : nth_error l i = Some c -> exists p r, l = p ++ c :: r /\ length p = i.
Proof. apply nth_error_split. Qed.
Lemma skipn_app_len {A} (p r : list A) n : length p = n -> skipn n (p ++ r) = r.
Proof. intros <-. apply skipn_length_app. Qed.

Lemma app_eq_len {A} : forall (p q r s : list A), p ++ r = q ++ s -> length p = length q -> p = q /\ r = s.
Proof.
  induction p as [|x p IH]; intros [|y q] r s H E; cbn in *; try discriminate; [auto|].
  injection H as -> H. destruct (IH q r s H ltac:(lia)) as [-> ->]. auto.
Qed.

Lemma qback_negb : forall p o, qback p (negb o) = option_map negb (qback p o).
Proof. induction p as [|c p IH]; intro o; [reflexivity|]. cbn [qback]. destruct (c =? 92); [apply IH|reflexivity]. Qed.

Lemma firstn_at {A} (p r : list A) n : length p = n -> firstn n (p ++ r) = p.
Proof. intros <-. rewrite firstn_app, Nat.sub_diag, firstn_all. cbn. apply app_nil_r. Qed.

Lemma close_shape json : forall rest pre i level inq esc e, json = pre ++ rest -> length pre = i ->
  qback (rev pre) false = Some (negb esc) -> close_loop json rest i level inq = Some e ->
  exists m r, rest = m ++ r /\ shuts m level inq esc = true /\ e = (i + length m)%nat.
Proof.
  induction rest as [|c r IH]; intros pre i level inq esc e HJ Hi Hq H; cbn [close_loop] in H; [discriminate|].
  assert (Hn : forall esc', (if c =? 92 then Some esc else Some true) = Some (negb esc') -> qback (rev (pre ++ [c])) false = Some (negb esc')).
  { intros esc' <-. rewrite rev_app_distr. cbn [rev app qback]. destruct (c =? 92); [|reflexivity].
    change true with (negb false). rewrite qback_negb. change (negb false) with true. rewrite Hq. cbn. rewrite negb_involutive. reflexivity. }
  assert (Go : forall level' inq' esc', (if c =? 92 then Some esc else Some true) = Some (negb esc') ->
    (forall m, shuts (c :: m) level inq esc = shuts m level' inq' esc') ->
    close_loop json r (S i) level' inq' = Some e ->
    exists m r0, c :: r = m ++ r0 /\ shuts m level inq esc = true /\ e = (i + length m)%nat).
  { intros l q es Hes Hsh E. destruct (IH (pre ++ [c]) (S i) l q es e) as (m & r0 & Hm & Hd & He); [rewrite HJ; same_text|len|apply Hn; exact Hes|exact E|].
    exists (c :: m), r0. split; [rewrite Hm; reflexivity|]. split; [rewrite Hsh; exact Hd|cbn [length]; lia]. }
  destruct (c =? 34) eqn:E34.
  { apply N.eqb_eq in E34. subst c. eapply (Go level _ false); [reflexivity| |exact H].
    intro m. cbn [shuts N.eqb Pos.eqb]. unfold toggle, qscan. rewrite HJ, firstn_at by exact Hi. rewrite Hq. destruct esc; reflexivity. }
  destruct (c =? 92) eqn:E92.
  { apply N.eqb_eq in E92. subst c. destruct inq; cbn [is_open is_close N.eqb Pos.eqb orb] in H;
      (eapply (Go _ _ (negb esc)); [rewrite negb_involutive; reflexivity|reflexivity|exact H]). }
  destruct inq.
  { eapply (Go _ _ false); [reflexivity| |exact H]. intro m. cbn [shuts]. rewrite E34, E92. reflexivity. }
  unfold is_open, is_close in H. destruct ((c =? 91) || (c =? 123)) eqn:Eo.
  { eapply (Go _ _ false); [reflexivity| |exact H]. intro m. cbn [shuts]. rewrite E34, E92, Eo. reflexivity. }
  destruct ((c =? 93) || (c =? 125)) eqn:Ec.
  { destruct (level =? 1)%nat eqn:El.
    - injection H as <-. apply Nat.eqb_eq in El. subst level. exists [c], r. split; [reflexivity|]. cbn [shuts]. rewrite E34, E92, Eo, Ec.
      split; [reflexivity|cbn; lia].
    - eapply (Go _ _ false); [reflexivity| |exact H]. intro m. cbn [shuts]. rewrite E34, E92, Eo, Ec.
      destruct level as [|[|l]]; [reflexivity|discriminate|reflexivity]. }
  eapply (Go _ _ false); [reflexivity| |exact H]. intro m. cbn [shuts]. rewrite E34, E92, Eo, Ec. reflexivity.
Qed.

Lemma quote_shape : forall n rest i e, (length rest <= n)%nat -> quote_loop rest i = Some e ->
  exists m r, rest = m ++ 34 :: r /\ str_ok m = true /\ e = (i + length m)%nat.
Proof.
  induction n as [|n IH]; intros rest i e Hn H; destruct rest as [|c r]; cbn [quote_loop length] in *; try discriminate; [lia|].
  destruct (c =? 92) eqn:E92.
  - destruct r as [|d r']; [discriminate|]. cbn [length] in Hn. destruct (IH r' _ _ ltac:(lia) H) as (m & r0 & -> & Hm & ->).
    exists (c :: d :: m), r0. split; [reflexivity|]. split; [|cbn; lia]. cbn [str_ok]. nbool. subst c. exact Hm.
  - destruct (c =? 34) eqn:E34.
    + nbool. subst c. injection H as <-. exists [], r. cbn. repeat split. lia.
    + destruct (IH r _ _ ltac:(lia) H) as (m & r0 & -> & Hm & ->). exists (c :: m), r0.
      split; [reflexivity|]. split; [|cbn; lia]. cbn [str_ok]. rewrite E34, E92. exact Hm.
Qed.

Lemma delimiter_spec c : delimiter c = (space c || (c =? 44) || (c =? 93) || (c =? 125)).
Proof. reflexivity. Qed.
Lemma token_shape : forall rest i e, token_loop rest i = Some e ->
  exists m c r, rest = m ++ c :: r /\ forallb (fun c => negb (delimiter c)) m = true /\ delimiter c = true /\ e = (i + length m)%nat.
Proof.
  induction rest as [|c r IH]; intros i e H; cbn [token_loop] in H; [discriminate|]. rewrite <- delimiter_spec in H.
  destruct (delimiter c) eqn:E.
  - injection H as <-. exists [], c, r. cbn. repeat split; [exact E|lia].
  - destruct (IH _ _ H) as (m & d & r0 & -> & Hm & Hd & ->). exists (c :: m), d, r0. cbn [app length forallb]. rewrite E, Hm.
    repeat split; [exact Hd|lia].
Qed.

Lemma open_in c : is_open c = true -> In c [91; 123].
Proof. intro H. apply open_cases in H. destruct H; subst; cbn; auto. Qed.
Lemma close_in c : is_close c = true -> In c [93; 125].
Proof. unfold is_close. intro H. apply orb_true_iff in H. destruct H as [H|H]; nbool; subst; cbn; auto. Qed.

Lemma value_end_shape json ks off ks' s e : value_end json ks off = Ok (ks', s, e) ->
  ks' = ks /\ (off <= s)%nat /\
  exists A r C, json = A ++ r ++ C /\ length A = s /\ (s + length r)%nat = e /\ value_in A r C.
Proof.
  unfold value_end. intro H. unfold at_ in H. destruct (nth_error json off) as [c|] eqn:Ec; [|discriminate]. cbn [bind] in H.
  destruct (split_nth _ _ _ Ec) as (A & R & HJ & HA).
  destruct (is_open c) eqn:Eo.
  - destruct (close_loop json (skipn off json) off 0 false) as [e'|] eqn:E; [|discriminate]. injection H as <- <- <-.
    split; [reflexivity|]. split; [lia|]. rewrite HJ, (skipn_app_len A) in E by exact HA. rewrite <- HJ in E. cbn [close_loop] in E.
    replace (c =? 34) with false in E by (apply open_cases in Eo; destruct Eo; subst; reflexivity). rewrite Eo in E.
    destruct (close_shape json R (A ++ [c]) (S off) 1 false false e') as (m & r & Hm & Hd & He); [rewrite HJ; same_text|len| |exact E|].
    { rewrite rev_app_distr. cbn [rev app qback]. apply open_cases in Eo. destruct Eo; subst; reflexivity. }
    exists A, (c :: m), r. rewrite HJ, Hm. split; [same_text|]. split; [exact HA|].
    split; [cbn [length]; lia|]. left. split; [apply open_in; exact Eo|exact Hd].
  - destruct (c =? 34) eqn:E34.
    + nbool. subst c. destruct (quote_loop (skipn (S off) json) (S off)) as [e'|] eqn:E; [|discriminate]. injection H as <- <- <-.
      split; [reflexivity|]. split; [lia|]. destruct (quote_shape _ _ _ _ (le_n _) E) as (m & r & Hm & Hs & He).
      assert (HJ' : json = (A ++ [34]) ++ R) by (rewrite HJ; same_text).
      rewrite HJ', (skipn_app_len (A ++ [34])) in Hm by len. exists (A ++ [34]), m, (34 :: r). rewrite HJ', Hm.
      split; [same_text|]. split; [len|]. split; [lia|]. right. left. split; [eauto|]. split; [exact Hs|eauto].
    + destruct (token_loop (skipn off json) off) as [e'|] eqn:E; [|discriminate].
      destruct (e' =? off)%nat eqn:E0; [discriminate|]. injection H as <- <- <-. split; [reflexivity|]. split; [lia|].
      destruct (token_shape _ _ _ E) as (m & d & r & Hm & Hn & Hd & He). rewrite HJ, (skipn_app_len A) in Hm by exact HA.
      exists A, m, (d :: r). rewrite HJ, Hm. split; [same_text|]. split; [exact HA|]. split; [lia|]. right. right.
      apply Nat.eqb_neq in E0. destruct m as [|c0 m]; [cbn in He; lia|]. injection Hm as <- _.
      split; [discriminate|]. split; [|split; [exact Hn|eauto]]. cbn [hd In]. intros [<-|[<-|[<-|[]]]]; discriminate.
Qed.

(** ** Where the key starts *)

(** What is known of the key mark when the scan is over: it is before the value and at an occurrence of [x], which
    has quotes around it unless the text begins with it. *)
Definition marked (json x : bytes) (st : cst) : Prop :=
  match keyst st with
  | None => True
  | Some n => exists e, key_match json x n e = true /\
      (n = O \/ nth_error json (pred n) = Some 34) /\ (e = O \/ nth_error json e = Some 34) /\
      (n < offset st)%nat /\ (e < offset st)%nat
  end.

Definition no_open (json : bytes) (i : nat) : Prop := forall j c, (i <= j)%nat -> nth_error json j = Some c -> is_open c = false.

Lemma last_nth (path : list bytes) : forall k x, nth_error path k = Some x -> S k = length path -> last path [] = x.
Proof.
  induction path as [|y path IH]; intros [|k] x H E; cbn in *; try discriminate.
  - injection H as ->. destruct path; [reflexivity|discriminate].
  - destruct path; [discriminate|]. apply (IH k); [exact H|lia].
Qed.

Section Mark.
  Variables (json : bytes) (path : list bytes).

  Definition known (k : nat) (st : cst) : Prop :=
    keyst st = None /\ (brace st <> 91 -> nth_error path k = Some (cur st) \/ no_open json (offset st)).
  Definition ready (k : nat) (st : cst) : Prop :=
    if (k =? length path)%nat then marked json (last path []) st else known k st.

  (** Without a bracket to come the key search cannot get to its level. *)
  Lemma key_stuck : forall rest i resume k level inq s e st k' st', rest = skipn i json -> no_open json i ->
    (level <= k)%nat -> key_loop json path rest i resume k level false inq s e st <> Ok (k', st').
  Proof.
    induction rest as [|c r IH]; intros i resume k level inq s e st k' st' Hr Ho Hl; cbn [key_loop]; [discriminate|].
    apply skipn_step in Hr. destruct Hr as [Hc Hr].
    assert (Hn : no_open json (S i)) by (intros j d Hj; apply Ho; lia). pose proof (Ho i c (le_n _) Hc) as Hop.
    unfold is_open in Hop. apply orb_false_iff in Hop. destruct Hop as [H91 H123].
    replace (level =? S k)%nat with false by (symmetry; apply Nat.eqb_neq; lia). cbn [negb andb]. rewrite H91, H123.
    destruct (i <? resume)%nat; [apply IH; assumption|]. destruct (c =? 34); [apply IH; assumption|].
    destruct inq; [apply IH; assumption|]. destruct (is_close c); [|apply IH; assumption].
    replace (level <? S k)%nat with true by (symmetry; apply Nat.ltb_lt; lia). discriminate.
  Qed.

  Definition smark (i s : nat) : Prop := (s <= i)%nat /\ (s = O \/ nth_error json (pred s) = Some 34).
  Definition emark (i e : nat) : Prop := (e <= i)%nat /\ (e = O \/ nth_error json e = Some 34).

  Lemma key_mark : forall rest i resume k level found inq s e st k' st', rest = skipn i json ->
    (k < length path)%nat -> keyst st = None -> brace st <> 91 -> nth_error path k = Some (cur st) ->
    smark i s -> emark i e ->
    (found = true -> S k <> length path /\ inq = false /\ (resume <= i)%nat /\ key_match json (cur st) s e = true /\
       forall j c, (offset st <= j < i)%nat -> nth_error json j = Some c -> is_open c = false) ->
    key_loop json path rest i resume k level found inq s e st = Ok (k', st') -> (k' < length path)%nat /\ ready (S k') st'.
  Proof.
    induction rest as [|c r IH]; intros i resume k level found inq s e st k' st' Hr Hk Hks Hb Hcur Hs He Hf H; cbn [key_loop] in H.
    - destruct found; [|discriminate]. injection H as <- <-. split; [exact Hk|]. destruct (Hf eq_refl) as (H1 & _ & _ & _ & H2).
      unfold ready. rewrite (proj2 (Nat.eqb_neq _ _) H1). split; [exact Hks|]. intros _. right. intros j c Hj Hc.
      apply (H2 j c); [|exact Hc]. split; [exact Hj|]. apply nth_error_ext in Hc.
      assert (length (skipn i json) = O) by (rewrite <- Hr; reflexivity). rewrite skipn_length in H. lia.
    - apply skipn_step in Hr. destruct Hr as [Hc Hr].
      assert (Hs' : smark (S i) s) by (destruct Hs; split; [lia|assumption]).
      assert (He' : emark (S i) e) by (destruct He; split; [lia|assumption]).
      assert (Go : forall resume level inq s e, smark (S i) s -> emark (S i) e -> found = false ->
        key_loop json path r (S i) resume k level found inq s e st = Ok (k', st') -> (k' < length path)%nat /\ ready (S k') st').
      { intros. eapply IH; try eassumption. intro. congruence. }
      assert (Stay : forall level, is_open c = false \/ found = false -> inq = inq ->
        (found = true -> (resume <= i)%nat) ->
        key_loop json path r (S i) resume k level found inq s e st = Ok (k', st') -> (k' < length path)%nat /\ ready (S k') st').
      { intros l Ho _ _ E. eapply IH; try eassumption. intro F. destruct (Hf F) as (F1 & F2 & F3 & F4 & F5).
        repeat (split; [solve [assumption | lia]|]). intros j d Hj Hd. destruct (Nat.eq_dec j i) as [->|]; [|apply (F5 j d); [lia|exact Hd]].
        destruct Ho as [Ho|]; [|congruence]. rewrite Hc in Hd. injection Hd as <-. exact Ho. }
      destruct (i <? resume)%nat eqn:Er.
      { eapply Stay; try exact H; [|reflexivity|intro F; apply (Hf F)]. destruct found; [|auto].
        apply Nat.ltb_lt in Er. destruct (Hf eq_refl) as (_ & _ & F & _). lia. }
      destruct (c =? 34) eqn:E34.
      { nbool. subst c. destruct found.
        - eapply Stay; try exact H; [left; reflexivity|reflexivity|intros _; apply (Hf eq_refl)].
        - destruct (negb (level =? S k)%nat); [apply (Go _ _ _ _ _ Hs' He' eq_refl H)|].
          assert (Hs2 : smark (S i) (S i)) by (split; [lia|right; exact Hc]).
          assert (He2 : emark (S i) i) by (split; [lia|right; exact Hc]).
          destruct (qscan json i) as [[]|]; [destruct (negb inq)| |destruct inq]; eapply Go; try exact H; try assumption; reflexivity. }
      destruct inq.
      { destruct found; [destruct (Hf eq_refl) as (_ & F & _); discriminate|]. apply (Go _ _ _ _ _ Hs' He' eq_refl H). }
      destruct ((level =? S k)%nat && (c =? 58)) eqn:Ecol.
      { apply andb_true_iff in Ecol. destruct Ecol as [_ Ecol]. apply N.eqb_eq in Ecol. subst c. destruct (key_match json (cur st) s e) eqn:Em.
        - destruct (S k =? length path)%nat eqn:Ek.
          + injection H as <- <-. split; [exact Hk|]. unfold ready. rewrite Ek. unfold marked. cbn [keyst offset].
            apply Nat.eqb_eq in Ek. rewrite (last_nth path k (cur st) Hcur Ek). destruct Hs as [Hs1 Hs2], He as [He1 He2].
            exists e. repeat split; [exact Em|exact Hs2|exact He2|lia|lia].
          + eapply IH; try exact H; try assumption. intros _. apply Nat.eqb_neq in Ek. cbn [cur offset].
            repeat split; [exact Ek|apply Nat.ltb_ge in Er; lia|exact Em|]. intros j d Hj. lia.
        - destruct found; [destruct (Hf eq_refl) as (_ & _ & _ & F & _); congruence|].
          destruct (jump_loop json r (S i) k level false); try discriminate; apply (Go _ _ _ _ _ Hs' He' eq_refl H). }
      assert (Fk : found = true -> exists p, nth_error path (S k) = Some p).
      { intro F. destruct (Hf F) as (F1 & _). destruct (nth_error path (S k)) eqn:E; [eauto|]. apply nth_error_None in E. lia. }
      destruct (c =? 91) eqn:E91.
      { nbool. subst c. destruct found; [|apply (Go _ _ _ _ _ Hs' He' eq_refl H)].
        destruct (Fk eq_refl) as [p Hp]. rewrite Hp in H. injection H as <- <-. split; [exact Hk|].
        destruct (Hf eq_refl) as (F1 & _). unfold ready. rewrite (proj2 (Nat.eqb_neq _ _) F1). split; [exact Hks|].
        cbn [brace]. intro. congruence. }
      destruct (c =? 123) eqn:E123.
      { destruct found; [|apply (Go _ _ _ _ _ Hs' He' eq_refl H)].
        destruct (Fk eq_refl) as [p Hp]. rewrite Hp in H. pose proof (nth_error_ext _ _ _ Hp).
        eapply IH; try exact H; try assumption; discriminate. }
      assert (Hop : is_open c = false) by (unfold is_open; rewrite E91, E123; reflexivity).
      destruct (is_close c).
      { destruct (level <? S k)%nat; [discriminate|]. eapply Stay; try exact H; [auto|reflexivity|intro F; apply (Hf F)]. }
      eapply Stay; try exact H; [auto|reflexivity|intro F; apply (Hf F)].
  Qed.

  Lemma nth_ext_None k : nth_error path (S k) = None -> (k < length path)%nat -> S k = length path.
  Proof. intros H Hk. apply nth_error_None in H. lia. Qed.

  Lemma arr_mark k st st' : (k < length path)%nat -> brace st = 91 -> known k st -> arr_step json path k st = Ok st' -> ready (S k) st'.
  Proof.
    intros Hk Hb (Hks & _) H. unfold arr_step in H. destruct (atoi (cur st)) as [idx|]; [|discriminate].
    assert (Keep : forall st', keyst st' = None -> (brace st' <> 91 -> nth_error path (S k) = Some (cur st') \/ S k = length path) -> ready (S k) st').
    { intros s K B. unfold ready. destruct (S k =? length path)%nat eqn:E; [unfold marked; rewrite K; exact I|].
      split; [exact K|]. intro HB. destruct (B HB) as [HB'|HB']; [auto|]. apply Nat.eqb_neq in E. contradiction. }
    destruct (idx =? 0)%Z.
    - destruct (arr0_loop (skipn (S (offset st)) json) (S (offset st)) (S k =? length path)%nat) as [o| |] eqn:E; cbn [bind] in H; try discriminate.
      destruct o as [[i c]|].
      + destruct (S k =? length path)%nat eqn:Ek.
        * injection H as <-. apply Keep; [exact Hks|]. intros _. right. apply Nat.eqb_eq. exact Ek.
        * destruct (nth_error path (S k)) as [p|] eqn:Ep; [|discriminate]. injection H as <-. apply Keep; [exact Hks|]. auto.
      + injection H as <-. apply Keep; [exact Hks|]. cbn [brace]. intro. congruence.
    - destruct (arr_loop json (skipn (offset st) json) (offset st) (S k =? length path)%nat idx 0 false false 0) as [o| |] eqn:E; cbn [bind] in H; try discriminate.
      destruct o as [off|i c|].
      + injection H as <-. apply Keep; [exact Hks|]. cbn [brace]. intro. congruence.
      + destruct (nth_error path (S k)) as [p|] eqn:Ep; [|discriminate]. injection H as <-. apply Keep; [exact Hks|]. auto.
      + injection H as <-. apply Keep; [exact Hks|]. intro. congruence.
  Qed.

  Lemma OUT_mark : forall n k st st', (length path - k = n)%nat -> (k <= length path)%nat -> ready k st ->
    OUT json path k st = Ok st' -> marked json (last path []) st'.
  Proof.
    intro n. induction n as [n IH] using (well_founded_induction lt_wf). intros k st st' Hn Hk Hst H.
    unfold ready in Hst. destruct (k =? length path)%nat eqn:Ek.
    - apply Nat.eqb_eq in Ek. rewrite OUT_end in H by lia. injection H as <-. exact Hst.
    - apply Nat.eqb_neq in Ek. destruct (N.eq_dec (brace st) 91) as [Hb|Hb].
      + rewrite OUT_arr in H by (auto; lia). destruct (arr_step json path k st) as [st1| |] eqn:Es; cbn [bind] in H; try discriminate.
        apply arr_mark in Es; [|lia|exact Hb|exact Hst]. apply (IH (length path - S k)%nat ltac:(lia) (S k) st1); [reflexivity|lia|exact Es|exact H].
      + rewrite OUT_key in H by (auto; lia). unfold RK in H. destruct Hst as (Hks & Hc). destruct (Hc Hb) as [Hcur|Hno].
        * destruct (key_loop json path (skipn (offset st) json) (offset st) 0 k k false false 0 0 st) as [[k' st1]| |] eqn:Es; cbn [bind] in H; try discriminate.
          pose proof (key_loop_ge _ _ _ _ _ _ _ _ _ _ _ _ _ _ Es).
          apply key_mark in Es; auto; [|lia|split; [lia|auto]|split; [lia|auto]|discriminate]. destruct Es as [Hk' Hr].
          apply (IH (length path - S k')%nat ltac:(lia) (S k') st1); [reflexivity|lia|exact Hr|exact H].
        * destruct (key_loop json path (skipn (offset st) json) (offset st) 0 k k false false 0 0 st) as [[k' st1]| |] eqn:Es; cbn [bind] in H; try discriminate.
          exfalso. revert Es. apply key_stuck; [reflexivity|exact Hno|lia].
  Qed.
End Mark.

Lemma skip_space_ge : forall rest i n, skip_space rest i = Ok n -> (i <= n)%nat.
Proof.
  induction rest as [|c r IH]; intros i n H; cbn [skip_space] in H; [discriminate|].
  destruct (space c); [apply IH in H; lia|]. injection H as <-. lia.
Qed.

Definition key_at (json x : bytes) (s n : nat) : Prop :=
  n = O \/ exists K l, json = K ++ 34 :: x ++ 34 :: l /\ n = S (length K) /\ (n + length x < s)%nat.

Lemma core_shape json path ks s e : core json false path = Ok (ks, s, e) ->
  Get json path = slice json s e /\
  (exists A r C, json = A ++ r ++ C /\ length A = s /\ (s + length r)%nat = e /\ value_in A r C) /\
  match ks with None => True | Some n => key_at json (last path []) s n /\ (n < s)%nat /\ (n = O -> begins_with (last path []) json) end.
Proof.
  intro H. pose proof H as H0. unfold core in H0. destruct (length json <? 2)%nat; [discriminate|]. destruct path as [|p0 path]; [discriminate|].
  split; [unfold Get; rewrite H; reflexivity|]. clear H.
  destruct (skip_space json 0) as [off| |]; cbn [bind] in H0; try discriminate.
  destruct (at_ json off) as [br| |]; cbn [bind] in H0; try discriminate.
  destruct (outer json (p0 :: path) (p0 :: path) 0 0 (CSt off br p0 None)) as [st| |] eqn:Eo; cbn [bind] in H0; try discriminate.
  destruct (offset st =? 0)%nat; [discriminate|].
  destruct (skip_space (skipn (offset st) json) (offset st)) as [off'| |] eqn:Es; cbn [bind] in H0; try discriminate.
  apply skip_space_ge in Es. apply value_end_shape in H0. destruct H0 as (-> & Hoff & Hv). split; [exact Hv|].
  assert (M : marked json (last (p0 :: path) []) st).
  { eapply (OUT_mark json (p0 :: path) _ 0 (CSt off br p0 None)); [reflexivity|cbn; lia| |exact Eo].
    unfold ready. change (0 =? length (p0 :: path))%nat with false. split; [reflexivity|]. intros _. left. reflexivity. }
  unfold marked in M. destruct (keyst st) as [n|]; [|exact I]. destruct M as (e' & Hm & Hn & He & Hlt & Hlt2).
  split; [|split; [lia|intros ->; exact (key_match_prefix json e' _ Hm)]].
  unfold key_at. destruct n as [|n]; [auto|]. right.
  destruct Hn as [Hn|Hn]; [discriminate|]. cbn [pred] in Hn. unfold key_match in Hm. apply andb_true_iff in Hm. destruct Hm as [Hm1 Hm2].
  apply Nat.eqb_eq in Hm1. apply bytes_eqb_eq in Hm2. destruct He as [He|He]; [lia|].
  destruct (split_nth _ _ _ Hn) as (K & R & HJ & HK). subst n.
  set (x := last (p0 :: path) []) in *. clearbody x.
  assert (HJ2 : json = (K ++ [34]) ++ R) by (rewrite HJ; same_text).
  rewrite HJ2, (skipn_app_len (K ++ [34])) in Hm2 by len. rewrite <- (firstn_skipn (length x) R), Hm2 in HJ.
  rewrite HJ in He. replace e' with (length (K ++ 34%N :: x) + 0)%nat in He by len.
  replace (K ++ 34 :: x ++ skipn (length x) R) with ((K ++ 34 :: x) ++ skipn (length x) R) in He by same_text.
  rewrite nth_error_app2, Nat.add_0_r, Nat.sub_diag in He by lia.
  destruct (skipn (length x) R) as [|c l]; [discriminate|]. injection He as ->.
  exists K, l. split; [exact HJ|]. split; [reflexivity|lia].
Qed.

Lemma get_core json path r : path <> [] -> Get json path = Ok r -> exists ks s e, core json false path = Ok (ks, s, e).
Proof.
  intros Hp H. unfold Get in H. destruct path as [|p0 path]; [congruence|]. destruct (core json false (p0 :: path)) as [[[ks s] e]| |]; [eauto|discriminate|discriminate].
Qed.

Theorem get_splice json path r : path <> [] -> Get json path = Ok r -> exists A C, json = A ++ r ++ C /\ value_in A r C.
Proof.
  intros Hp H. destruct (get_core _ _ _ Hp H) as (ks & s & e & E). destruct (core_shape _ _ _ _ _ E) as (E1 & (A & r' & C & HJ & HA & He & Hv) & _).
  rewrite H in E1. rewrite HJ, (slice_app_eq _ A r' C) in E1; [|reflexivity|lia|len]. injection E1 as ->. exists A, C. auto.
Qed.

Lemma core_get json path ks s e : core json false path = Ok (ks, s, e) ->
  exists A r C, json = A ++ r ++ C /\ length A = s /\ (s + length r)%nat = e /\ value_in A r C /\ Get json path = Ok r.
Proof.
  intro H. destruct (core_shape _ _ _ _ _ H) as (E1 & (A & r & C & HJ & HA & He & Hv) & _).
  exists A, r, C. repeat (split; [assumption|]). rewrite E1, HJ. apply slice_app_eq with (p := A) (r := C); [reflexivity|lia|len].
Qed.

(** ** Set *)
Lemma replace_split A old C new s e : s = length A -> e = (length A + length old)%nat ->
  done_replace (A ++ old ++ C) new s e = Done (A ++ new ++ C).
Proof.
  intros -> ->. unfold done_replace. rewrite (replace_app_eq (A ++ old ++ C) A old C new _ _ eq_refl eq_refl) by len. reflexivity.
Qed.

Lemma nth_before (A R : bytes) c : nth_error (A ++ R) (pred (length A)) = Some c -> A <> [] -> exists A', A = A' ++ [c].
Proof.
  intros H HA. destruct (exists_last HA) as (A' & d & ->). exists A'. rewrite app_length in H. cbn [length] in H.
  replace (pred (length A' + 1)) with (length A' + 0)%nat in H by lia. rewrite <- app_assoc, nth_error_app2, Nat.add_0_r, Nat.sub_diag in H by lia.
  cbn in H. injection H as ->. reflexivity.
Qed.

Lemma at_after (A R : bytes) n c : n = length A -> at_ (A ++ R) n = Ok c -> exists R', R = c :: R'.
Proof.
  intros -> H. unfold at_ in H. rewrite nth_error_app2, Nat.sub_diag in H by lia. destruct R as [|d R]; [discriminate|].
  cbn in H. injection H as ->. eauto.
Qed.

Lemma at_before (A R : bytes) n c : n = length A -> at_pred (A ++ R) n = Ok c -> exists A', A = A' ++ [c].
Proof.
  intros -> H. unfold at_pred in H. destruct (length A) as [|p] eqn:E; [discriminate|]. unfold at_ in H.
  destruct (nth_error (A ++ R) p) as [d|] eqn:En; [|discriminate]. injection H as ->. apply (nth_before A R).
  - rewrite E. exact En.
  - intros ->. discriminate.
Qed.

Lemma set_span_shape A r C new s e out : s = length A -> e = (length A + length r)%nat -> set_span (A ++ r ++ C) new s e = Done out ->
  exists A' old C', whole A r C A' old C' /\ out = A' ++ new ++ C'.
Proof.
  intros Hs He H. unfold set_span in H. destruct (at_pred (A ++ r ++ C) s) as [c| |] eqn:E; try discriminate. cbn [pbind] in H.
  apply (at_before _ _ _ _ Hs) in E. destruct E as [A' HA']. destruct (c =? 34) eqn:Ec.
  - apply N.eqb_eq in Ec. subst c. destruct (at_ (A ++ r ++ C) e) as [d| |] eqn:Ed; try discriminate. cbn [pbind] in H.
    rewrite app_assoc in Ed. apply at_after in Ed; [|len]. destruct Ed as [C' HC'].
    destruct (d =? 34) eqn:Edd.
    + apply N.eqb_eq in Edd. subst d A C. replace ((A' ++ [34]) ++ r ++ 34 :: C') with (A' ++ (34 :: r ++ [34]) ++ C') in H by same_text.
      rewrite replace_split in H; [|subst s; len|subst e; len]. injection H as <-. exists A', (34 :: r ++ [34]), C'. split; [right; auto|reflexivity].
    + rewrite replace_split in H by assumption. injection H as <-. exists A, r, C. split; [left|reflexivity]. repeat split.
      intros (A1 & C1 & _ & E). rewrite E in HC'. injection HC' as <- _. discriminate.
  - rewrite replace_split in H by assumption. injection H as <-. exists A, r, C. split; [left|reflexivity]. repeat split.
    intros (A1 & C1 & E & _). rewrite E in HA'. apply app_inj_tail in HA'. destruct HA' as [_ <-]. discriminate.
Qed.

Theorem set_splice json new path out : Set_ json new path = Done out -> set_shape Get json path new out.
Proof.
  intro H. unfold Set_ in H. destruct path as [|p0 path]; [discriminate|].
  destruct (core json false (p0 :: path)) as [[[ks s] e]| |] eqn:E; try discriminate. cbn [ubind] in H.
  destruct (core_get _ _ _ _ _ E) as (A & r & C & -> & HA & He & Hv & Hg).
  apply set_span_shape in H; [|auto|lia]. destruct H as (A' & old & C' & Hw & ->). exists A, r, C, A', old, C'. auto.
Qed.

(** ** SetKey *)
Lemma done_replace_shape json new s e out : (s <= e)%nat -> done_replace json new s e = Done out ->
  exists A old C, json = A ++ old ++ C /\ length A = s /\ length old = (e - s)%nat /\ out = A ++ new ++ C.
Proof.
  intros Hse H. unfold done_replace, replace in H. destruct ((s <=? length json)%nat && (e <=? length json)%nat) eqn:E; [|discriminate].
  apply andb_true_iff in E. destruct E as [E1 E2]. apply Nat.leb_le in E1, E2. cbn [pbind] in H. injection H as <-.
  exists (firstn s json), (skipn s (firstn e json)), (skipn e json). split; [|split; [rewrite firstn_length; lia|split; [rewrite skipn_length, firstn_length; lia|reflexivity]]].
  rewrite app_assoc. rewrite <- (firstn_skipn e json) at 1. f_equal. rewrite <- (firstn_skipn s (firstn e json)) at 1. f_equal.
  rewrite firstn_firstn. f_equal. lia.
Qed.

Lemma setkey_ge : forall n rest i bound j, (length rest <= n)%nat -> setkey_loop rest i bound = Ok (Some j) -> (i <= j)%nat.
Proof.
  induction n as [|n IH]; intros [|c r] i bound j Hn H; cbn [setkey_loop length] in *; try (destruct (i <? bound)%nat; discriminate); [lia|].
  destruct (i <? bound)%nat; [|discriminate]. destruct (c =? 92).
  - destruct r as [|d r]; [destruct (S (S i) <? bound)%nat; discriminate|]. cbn [length] in Hn. apply IH in H; lia.
  - destruct (c =? 34); [injection H as <-; lia|]. apply IH in H; lia.
Qed.

Theorem setkey_splice json newKey path out : SetKey json newKey path = Done out ->
  (exists old, spliced json old newKey out) /\
  (str_ok (last path []) = true -> ~ begins_with (last path []) json ->
   exists A C, json = A ++ 34 :: last path [] ++ 34 :: C /\ out = A ++ 34 :: newKey ++ 34 :: C) /\
  exists r, Get json path = Ok r.
Proof.
  intro H. unfold SetKey in H. destruct newKey as [|k0 newKey]; [discriminate|]. set (nk := k0 :: newKey) in *.
  destruct path as [|p0 path]; [discriminate|]. set (P := p0 :: path) in *.
  destruct (core json false (removelast P ++ [nk])) as [?|er|]; try discriminate.
  destruct (err_equal (Some er) 8); [|discriminate].
  destruct (core json false P) as [[[ks s] e]| |] eqn:E; cbn [ubind] in H; try discriminate. destruct ks as [n|]; [|discriminate].
  destruct (core_get _ _ _ _ _ E) as (A & r & C & HJ & HA & He & Hv & Hg).
  destruct (core_shape _ _ _ _ _ E) as (_ & _ & Hk & Hns & Hz).
  destruct (setkey_loop (skipn n json) n s) as [[j|]| |] eqn:El; cbn [pbind] in H; try discriminate.
  pose proof (setkey_ge _ _ _ _ _ (le_n _) El) as Hnj.
  destruct (done_replace_shape _ _ _ _ _ Hnj H) as (A1 & old & C1 & HJ1 & HA1 & Ho & ->).
  split; [exists old, A1, C1; auto|]. split; [|eauto]. intros Hx Hb. destruct n as [|n]; [exfalso; apply Hb; apply Hz; reflexivity|].
  destruct Hk as [Hk|(K & l & HK & Hn & Hlt)]; [discriminate|]. set (x := last P []) in *. clearbody x.
  assert (HK2 : json = (K ++ [34]) ++ x ++ 34 :: l) by (rewrite HK; same_text).
  rewrite HK2, (skipn_app_len (K ++ [34])), setkey_loop_spec in El by (assumption || len). injection El as <-.
  exists K, l. split; [exact HK|]. rewrite HJ1 in HK2.
  apply app_eq_len in HK2; [|len]. destruct HK2 as [-> HK2]. apply app_eq_len in HK2; [|lia]. destruct HK2 as [_ ->]. same_text.
Qed.

(** ** AddKeyValue and Add *)

Lemma root_first_shape len o exp : forall rest i n, root_first len o exp rest i = Ok n -> (exists c, In c rest /\ space c = false) ->
  exists A r, rest = A ++ o :: r /\ forallb is_ws A = true /\ n = (i + length A)%nat.
Proof.
  induction rest as [|c r IH]; intros i n H Hc; cbn [root_first] in H; [destruct Hc as (d & [] & _)|].
  destruct (space c) eqn:Es.
  - destruct (IH _ _ H) as (A & r' & -> & HA & ->).
    { destruct Hc as (d & [<-|Hd] & Hs); [congruence|eauto]. }
    exists (c :: A), r'. cbn [app length forallb]. change (is_ws c) with (space c). rewrite Es, HA. repeat split. lia.
  - destruct (c =? o) eqn:Ec; [|discriminate]. destruct (S i =? len)%nat; [discriminate|]. injection H as <-.
    apply N.eqb_eq in Ec. subst. exists [], r. cbn. repeat split. lia.
Qed.

Lemma root_last_shape cl exp : forall rrest n m, n = length rrest -> root_last cl exp rrest n = Ok m -> m <> O ->
  exists C r, rrest = C ++ cl :: r /\ forallb is_ws C = true /\ m = S (length r).
Proof.
  induction rrest as [|c r IH]; intros n m Hn H Hm; cbn [root_last] in H; [injection H as <-; congruence|].
  subst n. cbn [length] in H. destruct (space c) eqn:Es.
  - destruct (IH _ _ eq_refl H Hm) as (C & r' & -> & HC & ->). exists (c :: C), r'. cbn [app forallb]. change (is_ws c) with (space c).
    rewrite Es, HC. auto.
  - destruct (c =? cl) eqn:Ec; [|discriminate]. destruct (length r =? 0)%nat; [discriminate|]. injection H as <-.
    apply N.eqb_eq in Ec. subst. exists [], r. auto.
Qed.

Lemma nth_at json n c : at_ json n = Ok c -> nth_error json n = Some c.
Proof. unfold at_. destruct (nth_error json n); [intros [= ->]; reflexivity|discriminate]. Qed.

Lemma braces_shape json s e o c : braces_at json s e o c = Ok true ->
  nth_error json s = Some o /\ e <> O /\ nth_error json (pred e) = Some c.
Proof.
  unfold braces_at. intro H. destruct (at_ json s) as [x| |] eqn:E1; cbn [bind] in H; try discriminate.
  destruct (x =? o) eqn:Ex; [|discriminate]. destruct (at_pred json e) as [y| |] eqn:E2; cbn [bind] in H; try discriminate.
  injection H as H. apply N.eqb_eq in H, Ex. subst. apply nth_at in E1. unfold at_pred in E2. destruct e as [|e]; [discriminate|].
  apply nth_at in E2. auto.
Qed.

Lemma first_last (r : bytes) o c : o <> c -> nth_error r 0 = Some o -> nth_error r (pred (length r)) = Some c -> exists m, r = o :: m ++ [c].
Proof.
  intros Hoc H0 H1. destruct r as [|x r]; [discriminate|]. injection H0 as ->. destruct r as [|y r] using rev_ind; [cbn in H1; congruence|].
  cbn [length pred] in H1. rewrite app_length in H1. cbn [length] in H1. rewrite Nat.add_1_r in H1. cbn [nth_error] in H1.
  rewrite nth_error_app2, Nat.sub_diag in H1 by lia. injection H1 as ->. eauto.
Qed.

Lemma target_shape json o cl exp path s e : o <> cl -> o <> 34 -> space o = false -> space cl = false -> target_span json o cl exp path = Ok (s, e) ->
  braces_at json s e o cl = Ok true ->
  exists A m C, target Get json path o cl A m C /\ s = length A /\ e = (length A + 2 + length m)%nat.
Proof.
  intros Hoc Ho34 Hso Hsc H Hb. apply braces_shape in Hb. destruct Hb as (H1 & He0 & H2). unfold target_span in H. destruct path as [|p0 path].
  - unfold root_span in H. destruct (root_first (length json) o exp json 0) as [s'| |] eqn:E1; cbn [bind] in H; try discriminate.
    destruct (root_last cl exp (rev json) (length json)) as [e'| |] eqn:E2; cbn [bind] in H; try discriminate. injection H as -> ->.
    apply root_first_shape in E1; [|exists o; split; [eapply nth_error_In; exact H1|exact Hso]].
    destruct E1 as (A & R & HJ & HA & Hs). cbn in Hs.
    apply root_last_shape in E2; [|rewrite rev_length; reflexivity|exact He0]. destruct E2 as (C & R' & HR & HC & He).
    apply (f_equal (@rev N)) in HR. rewrite rev_involutive, rev_app_distr in HR. cbn [rev] in HR.
    set (B := rev R') in *. set (C' := rev C) in *.
    assert (HlB : length B = length R') by apply rev_length.
    assert (HwC : forallb is_ws C' = true).
    { unfold C'. apply forallb_forall. intros d Hd. apply in_rev in Hd. rewrite forallb_forall in HC. apply HC. exact Hd. }
    assert (HAB : (length A < length B)%nat).
    { rewrite <- HlB in He. clearbody B C'. destruct (lt_eq_lt_dec (length A) (length B)) as [[Hlt|Heq]|Hgt]; [exact Hlt| |].
      - exfalso. rewrite Hs, Heq in H1. rewrite He in H2. cbn [pred] in H2. congruence.
      - exfalso. assert (nth_error A (length B) = Some cl).
        { rewrite He in H2. cbn [pred] in H2. rewrite HJ, nth_error_app1 in H2 by lia. exact H2. }
        apply nth_error_In in H. rewrite forallb_forall in HA. apply HA in H. change (is_ws cl) with (space cl) in H. congruence. }
    destruct (split_at B (length A) ltac:(lia)) as (A2 & B2 & HB2 & HA2).
    rewrite HJ in HR. rewrite HB2 in HR. rewrite <- !app_assoc in HR. apply app_eq_len in HR; [|auto]. destruct HR as [<- HR].
    destruct B2 as [|x m]; [exfalso; rewrite HB2, app_nil_r in HAB; lia|]. cbn [app] in HR. injection HR as <- HR.
    exists A, m, C'. split; [split; [rewrite HJ, HR; same_text|auto]|]. split; [exact Hs|]. rewrite He, <- HlB, HB2. len.
  - destruct (core json false (p0 :: path)) as [[[ks s'] e']| |] eqn:E; cbn [bind] in H; try discriminate. injection H as -> ->.
    destruct (core_get _ _ _ _ _ E) as (A & r & C & HJ & HA & He & Hv & Hg).
    assert (Hr : exists m, r = o :: m ++ [cl]).
    { destruct r as [|x r].
      - exfalso. assert (e = s) by (cbn in He; lia). subst e. cbn [app] in HJ.
        destruct Hv as [Hv|[(_ & _ & C' & HC')|(Hv & _)]]; [destruct Hv| |congruence].
        subst C. rewrite HJ, <- HA, nth_error_app2, Nat.sub_diag in H1 by lia. injection H1 as H1. congruence.
      - apply first_last; [exact Hoc| |].
        + rewrite HJ, <- HA, nth_error_app2, Nat.sub_diag in H1 by lia. exact H1.
        + rewrite <- He, <- HA, HJ, nth_error_app2 in H2 by (cbn [length]; lia).
          replace (pred (length A + length (x :: r)) - length A)%nat with (pred (length (x :: r))) in H2 by (cbn [length]; lia).
          rewrite nth_error_app1 in H2 by (cbn [length]; lia). exact H2. }
    destruct Hr as [m ->]. exists A, m, C. split; [split; [exact HJ|exact Hg]|]. split; [auto|]. rewrite <- He, <- HA. len.
Qed.

Lemma blank_shape A o c m C : blank_between (A ++ (o :: m ++ [c]) ++ C) (length A) (length A + 2 + length m) = forallb is_ws m.
Proof.
  unfold blank_between. replace (pred (length A + 2 + length m) - S (length A))%nat with (length m) by lia.
  replace (A ++ (o :: m ++ [c]) ++ C) with ((A ++ [o]) ++ m ++ c :: C) by same_text.
  rewrite skipn_app_len by len. rewrite firstn_app, Nat.sub_diag, firstn_all. cbn [firstn]. rewrite app_nil_r. reflexivity.
Qed.

Lemma add_replace A o c m C ins n : n = (length A + 2 + length m)%nat ->
  done_replace (A ++ (o :: m ++ [c]) ++ C) ins (pred n) (pred n) = Done (A ++ (o :: m ++ ins ++ [c]) ++ C).
Proof.
  intros ->. replace (A ++ (o :: m ++ [c]) ++ C) with ((A ++ o :: m) ++ [] ++ c :: C) by same_text.
  rewrite replace_split; [|len|len]. f_equal. same_text.
Qed.

Theorem addkv_splice json key value path out : AddKeyValue json key value path = Done out ->
  grown Get json path 123 125 (pair_of key (value_of value)) out.
Proof.
  intro H. unfold AddKeyValue in H. destruct (length json <? 2)%nat; [discriminate|].
  destruct (target_span json 123 125 EObjectExpected path) as [[s e]| |] eqn:Et; cbn [ubind] in H; try discriminate.
  destruct (braces_at json s e 123 125) as [[]| |] eqn:Eb; cbn [pbind] in H; try discriminate.
  apply target_shape in Et; try exact Eb; try reflexivity; try discriminate.
  destruct Et as (A & m & C & Ht & Hs & He). exists A, m, C. split; [exact Ht|]. destruct Ht as [HJ _].
  rewrite HJ, Hs in H. rewrite He in H at 1. rewrite blank_shape in H. rewrite <- HJ in H. destruct (forallb is_ws m).
  - rewrite HJ, add_replace in H by exact He. injection H as <-. unfold pair_of, value_of. same_text.
  - destruct (core json false (path ++ [key])) as [?|er|]; try discriminate. destruct (err_equal (Some er) 8); [|discriminate].
    rewrite HJ, add_replace in H by exact He. injection H as <-. unfold pair_of, value_of. same_text.
Qed.

Theorem add_splice json value path out : Add_ json value path = Done out -> grown Get json path 91 93 value out.
Proof.
  intro H. unfold Add_ in H. destruct (length json <? 2)%nat; [discriminate|].
  destruct (target_span json 91 93 EArrayExpected path) as [[s e]| |] eqn:Et; cbn [ubind] in H; try discriminate.
  destruct (braces_at json s e 91 93) as [[]| |] eqn:Eb; cbn [pbind] in H; try discriminate.
  apply target_shape in Et; try exact Eb; try reflexivity; try discriminate.
  destruct Et as (A & m & C & Ht & Hs & He). exists A, m, C. split; [exact Ht|]. destruct Ht as [HJ _].
  rewrite HJ, Hs in H. rewrite He in H at 1. rewrite blank_shape in H. destruct (forallb is_ws m);
    rewrite add_replace in H by exact He; injection H as <-; reflexivity.
Qed.

Theorem store_splice json key value path out : Store json key value path = Done out ->
  set_shape Get json (path ++ [key]) (match value with None => [] | Some v => v end) out \/
  ((exists er, Get json (path ++ [key]) = Err er) /\ grown Get json path 123 125 (pair_of key (value_of value)) out).
Proof.
  intro H. unfold Store in H. destruct (core json false (path ++ [key])) as [[[ks s] e]|er|] eqn:E; try discriminate.
  - left. destruct (core_get _ _ _ _ _ E) as (A & r & C & -> & HA & He & Hv & Hg).
    apply set_span_shape in H; [|auto|lia]. destruct H as (A' & old & C' & Hw & ->). exists A, r, C, A', old, C'. auto.
  - right. split.
    + exists er. unfold Get. rewrite E. destruct (path ++ [key]) eqn:Ep; [destruct path; discriminate|reflexivity].
    + destruct (err_equal (Some er) 8); [|discriminate]. apply addkv_splice. exact H.
Qed.

(** ** Insert and Delete *)
Lemma back_shape json : forall i n, back_edge json i = Ok n -> (n <= i)%nat /\
  forall j c, (n < j <= i)%nat -> nth_error json j = Some c -> space c = true.
Proof.
  induction i as [|i IH]; intros n H; cbn [back_edge] in H.
  - injection H as <-. split; [lia|]. intros j c Hj. lia.
  - destruct (at_ json (S i)) as [c| |] eqn:E; cbn [bind] in H; try discriminate. apply nth_at in E. destruct (space c) eqn:Es.
    + destruct (IH n H) as [H1 H2]. split; [lia|]. intros j d Hj Hd. destruct (Nat.eq_dec j (S i)) as [->|]; [congruence|]. apply (H2 j d); [lia|exact Hd].
    + injection H as <-. split; [lia|]. intros j d Hj. lia.
Qed.

Lemma fwd_shape json : forall rest i, rest = skipn i json -> fwd_edge rest i = O \/
  (i <= fwd_edge rest i)%nat /\ forall j c, (i <= j < fwd_edge rest i)%nat -> nth_error json j = Some c -> space c = true.
Proof.
  induction rest as [|c r IH]; intros i H; cbn [fwd_edge]; [auto|]. apply skipn_step in H. destruct H as [Hc Hr].
  destruct (space c) eqn:Es; [|right; split; [lia|intros; lia]].
  destruct (IH (S i) Hr) as [E|[E1 E2]]; [auto|]. right. split; [lia|]. intros j d Hj Hd.
  destruct (Nat.eq_dec j i) as [->|]; [congruence|]. apply (E2 j d); [lia|exact Hd].
Qed.

(** The value with the quotes the deleting and inserting functions see around it. *)
Lemma insert_splice json index value path out : Insert json index value path = Done out ->
  exists A0 m0 C0, target Get json path 91 93 A0 m0 C0 /\
  exists A q r C, json = A ++ q ++ r ++ C /\ (q = [] \/ q = [34]) /\ Get json (path ++ [itoa index]) = Ok r /\
    (out = A ++ value ++ 44 :: q ++ r ++ C \/
     exists A' c, A = A' ++ [c] /\ (is_ws c = true \/ c = 44) /\ out = A' ++ 44 :: value ++ c :: q ++ r ++ C).
Proof.
  intro H. unfold Insert in H.
  destruct (target_span json 91 93 EArrayExpected path) as [[s0 e0]| |] eqn:Et; cbn [ubind] in H; try discriminate.
  destruct (braces_at json s0 e0 91 93) as [[]| |] eqn:Eb; cbn [pbind] in H; try discriminate.
  apply target_shape in Et; try exact Eb; try reflexivity; try discriminate.
  destruct Et as (A0 & m0 & C0 & Ht & _ & _). exists A0, m0, C0. split; [exact Ht|]. clear Ht Eb.
  destruct (core json false (path ++ [itoa index])) as [[[ks s] e]| |] eqn:E; cbn [ubind] in H; try discriminate.
  destruct (core_get _ _ _ _ _ E) as (A1 & r & C & HJ & HA & He & Hv & Hg).
  destruct (at_pred json s) as [c| |] eqn:Ec; cbn [pbind] in H; try discriminate.
  rewrite HJ in Ec. apply at_before in Ec; [|auto]. destruct Ec as [A2 HA2].
  destruct (at_ json e) as [d| |] eqn:Ed; cbn [pbind] in H; try discriminate. cbv zeta in H.
  set (s' := if c =? 34 then pred s else s) in *. set (e' := if d =? 34 then S e else e) in *.
  destruct (back_edge json (pred s')) as [sedge| |] eqn:Ebk; cbn [pbind] in H; try discriminate.
  destruct (at_ json sedge) as [sc| |] eqn:Esc; cbn [pbind] in H; try discriminate.
  destruct (at_ json (fwd_edge (skipn e' json) e')) as [ec| |] eqn:Eec; cbn [pbind] in H; try discriminate.
  assert (Q : exists A q, json = A ++ q ++ r ++ C /\ (q = [] \/ q = [34]) /\ length A = s').
  { unfold s'. destruct (c =? 34) eqn:E34.
    - apply N.eqb_eq in E34. subst c. exists A2, [34]. subst A1. split; [rewrite HJ; same_text|]. split; [auto|]. rewrite <- HA. len.
    - exists A1, []. split; [rewrite HJ; same_text|]. auto. }
  destruct Q as (A & q & HJ2 & Hq & HlA). exists A, q, r, C. repeat (split; [assumption|]).
  assert (Ins : forall v, done_replace json v s' s' = Done out -> out = A ++ v ++ q ++ r ++ C).
  { intros v Hd. replace json with (A ++ [] ++ q ++ r ++ C) in Hd by (rewrite HJ2; same_text).
    rewrite replace_split in Hd; [|auto|cbn; lia]. injection Hd as <-. reflexivity. }
  destruct (is_open sc && (sc + 2 =? ec)); [left; apply Ins in H; rewrite H; same_text|].
  destruct (ec =? 44); [left; apply Ins in H; rewrite H; same_text|].
  destruct (sc =? 44) eqn:E44; [|discriminate]. right. destruct s' as [|p] eqn:Es'; [discriminate|].
  destruct A as [|x A] using rev_ind; [discriminate|]. exists A, x. split; [reflexivity|].
  apply nth_at in Esc. apply back_shape in Ebk. destruct Ebk as [Hle Hsp]. cbn [pred] in Hle, Hsp.
  assert (Hp : p = length A) by (rewrite app_length in HlA; cbn in HlA; lia).
  assert (Hx : nth_error json p = Some x).
  { rewrite HJ2, Hp, <- app_assoc, nth_error_app2, Nat.sub_diag by lia. reflexivity. }
  split.
  - destruct (Nat.eq_dec sedge p) as [->|Hne]; [right; apply N.eqb_eq in E44; congruence|]. left. apply (Hsp p x); [lia|exact Hx].
  - replace json with (A ++ [] ++ x :: q ++ r ++ C) in H by (rewrite HJ2; same_text).
    rewrite replace_split in H; [|auto|cbn; lia]. injection H as <-. reflexivity.
Qed.

Lemma forallb_nth (p : N -> bool) (l : bytes) : (forall j c, nth_error l j = Some c -> p c = true) -> forallb p l = true.
Proof. intro H. apply forallb_forall. intros c Hc. apply In_nth_error in Hc. destruct Hc as [j Hj]. eauto. Qed.

Lemma nth_skipn {A} (l : list A) n j : nth_error (skipn n l) j = nth_error l (n + j).
Proof. revert l. induction n as [|n IH]; intro l; [reflexivity|]. destruct l; [destruct j; reflexivity|]. apply IH. Qed.

Lemma nth_firstn {A} (l : list A) n j c : nth_error (firstn n l) j = Some c -> (j < n)%nat /\ nth_error l j = Some c.
Proof.
  revert l j. induction n as [|n IH]; intros l j H; [destruct j; discriminate|]. destruct l as [|x l]; [destruct j; discriminate|].
  destruct j as [|j]; [split; [lia|exact H]|]. cbn in H. apply IH in H. cbn. destruct H. split; [lia|assumption].
Qed.

(** A stretch around the value cut out. *)
Lemma cut_around A r C lo hi out : (lo <= length A)%nat -> (length A + length r <= hi)%nat ->
  done_replace (A ++ r ++ C) [] lo hi = Done out ->
  out = firstn lo A ++ skipn (hi - (length A + length r)) C /\ (hi <= length (A ++ r ++ C))%nat.
Proof.
  intros Hlo Hhi H. unfold done_replace, replace in H.
  destruct ((lo <=? length (A ++ r ++ C))%nat && (hi <=? length (A ++ r ++ C))%nat) eqn:E; [|discriminate].
  apply andb_true_iff in E. destruct E as [_ E]. apply Nat.leb_le in E. cbn [pbind] in H. injection H as <-. split; [|exact E]. cbn [app].
  rewrite firstn_app. replace (lo - length A)%nat with O by lia. cbn [firstn]. rewrite app_nil_r. f_equal.
  rewrite app_assoc, skipn_app, (skipn_all2 (A ++ r)) by len. cbn [app]. f_equal. len.
Qed.

Theorem delete_splice json path out : hd 0 json <> 44 -> Delete json path = Done out ->
  exists A l r m C, json = A ++ (l ++ r ++ m) ++ C /\ out = A ++ C /\ Get json path = Ok r /\ forallb sep m = true /\
    (forallb sep l = true \/ exists l1 l2, l = l1 ++ 34 :: last path [] ++ 34 :: l2 /\ forallb sep l1 = true).
Proof.
  intros Hhd H. unfold Delete in H. destruct path as [|p0 path]; [discriminate|]. set (P := p0 :: path) in *.
  destruct (core json false P) as [[[ks s] e]| |] eqn:E; cbn [ubind] in H; try discriminate.
  destruct (core_get _ _ _ _ _ E) as (A & r & C & HJ & HA & He & Hv & Hg).
  destruct (core_shape _ _ _ _ _ E) as (_ & _ & Hks).
  assert (Hks2 : ks <> Some O) by (intros ->; discriminate).
  set (start := match ks with None => s | Some ks => pred ks end) in *.
  assert (H' : pbind (at_pred json start) (fun c =>
          let start := if c =? 34 then pred start else start in
          pbind (at_ json e) (fun d =>
          let e := if d =? 34 then S e else e in
          pbind (back_edge json (pred start)) (fun sedge =>
          let eedge := fwd_edge (skipn e json) e in
          pbind (at_ json sedge) (fun sc =>
          pbind (at_ json eedge) (fun ec =>
          if is_open sc && (sc + 2 =? ec) then done_replace json [] start e
          else if ec =? 44 then done_replace json [] start (S eedge)
          else if sc =? 44 then done_replace json [] sedge e
          else Fail (Some json) (EBadJSON start)))))) = Done out).
  { destruct ks as [[|n]|]; [congruence|exact H|exact H]. }
  clear H. destruct (at_pred json start) as [c| |] eqn:Ec; cbn [pbind] in H'; try discriminate.
  destruct (at_ json e) as [d| |] eqn:Ed; cbn [pbind] in H'; try discriminate. cbv zeta in H'.
  set (s' := if c =? 34 then pred start else start) in *. set (e' := if d =? 34 then S e else e) in *.
  destruct (back_edge json (pred s')) as [sedge| |] eqn:Ebk; cbn [pbind] in H'; try discriminate.
  destruct (at_ json sedge) as [sc| |] eqn:Esc; cbn [pbind] in H'; try discriminate.
  destruct (at_ json (fwd_edge (skipn e' json) e')) as [ec| |] eqn:Eec; cbn [pbind] in H'; try discriminate.
  apply nth_at in Ed, Esc, Eec. unfold at_pred in Ec. destruct start as [|st] eqn:Est; [discriminate|]. apply nth_at in Ec.
  assert (Hst : (S st <= s)%nat).
  { rewrite <- Est. unfold start. destruct ks as [n|]; [destruct Hks as (_ & ? & _); lia|lia]. }
  (* what lies between the edge, the quote and the start *)
  assert (Hs' : (s' <= S st)%nat /\ forall j x, (s' <= j < S st)%nat -> nth_error json j = Some x -> x = 34).
  { unfold s'. cbn [pred]. destruct (c =? 34) eqn:E34; (split; [lia|]); intros j x Hj Hx; [|exfalso; lia].
    apply N.eqb_eq in E34. subst c. assert (j = st) by lia. subst j. congruence. }
  destruct Hs' as [Hs1 Hs2].
  assert (Hlow : forall lo, (lo = s' \/ lo = sedge /\ sc = 44) -> (lo <= S st)%nat /\ forall j x, (lo <= j < S st)%nat -> nth_error json j = Some x -> sep x = true).
  { apply back_shape in Ebk. destruct Ebk as [Hb1 Hb2]. intros lo [->|[-> ->]].
    - split; [exact Hs1|]. intros j x Hj Hx. rewrite (Hs2 j x Hj Hx). reflexivity.
    - split; [lia|]. intros j x Hj Hx. destruct (Nat.eq_dec j sedge) as [->|]; [assert (x = 44) by congruence; subst x; reflexivity|].
      destruct (le_lt_dec s' j) as [Hge|Hlt]; [rewrite (Hs2 j x ltac:(lia) Hx); reflexivity|].
      unfold sep. change (is_ws x) with (space x). rewrite (Hb2 j x); [reflexivity|lia|exact Hx]. }
  assert (He' : (e <= e')%nat /\ forall j x, (e <= j < e')%nat -> nth_error json j = Some x -> x = 34).
  { unfold e'. destruct (d =? 34) eqn:E34; (split; [lia|]); intros j x Hj Hx; [|exfalso; lia].
    apply N.eqb_eq in E34. subst d. assert (j = e) by lia. subst j. congruence. }
  destruct He' as [He1 He2].
  assert (Hup : forall hi, (hi = e' \/ hi = S (fwd_edge (skipn e' json) e') /\ ec = 44) ->
    (e <= hi)%nat /\ forall j x, (e <= j < hi)%nat -> nth_error json j = Some x -> sep x = true).
  { intros hi [->|[-> ->]].
    - split; [exact He1|]. intros j x Hj Hx. rewrite (He2 j x Hj Hx). reflexivity.
    - destruct (fwd_shape json _ e' eq_refl) as [F|[F1 F2]].
      + exfalso. rewrite F in Eec. destruct json; [discriminate|]. cbn in Eec, Hhd. congruence.
      + split; [lia|]. intros j x Hj Hx. destruct (le_lt_dec e' j) as [Hge|Hlt]; [|rewrite (He2 j x ltac:(lia) Hx); reflexivity].
        destruct (Nat.eq_dec j (fwd_edge (skipn e' json) e')) as [->|]; [assert (x = 44) by congruence; subst x; reflexivity|].
        unfold sep. change (is_ws x) with (space x). rewrite (F2 j x); [reflexivity|lia|exact Hx]. }
  assert (Fin : forall lo hi, (lo = s' \/ lo = sedge /\ sc = 44) -> (hi = e' \/ hi = S (fwd_edge (skipn e' json) e') /\ ec = 44) ->
    done_replace json [] lo hi = Done out ->
    exists A l r m C, json = A ++ (l ++ r ++ m) ++ C /\ out = A ++ C /\ Get json P = Ok r /\ forallb sep m = true /\
    (forallb sep l = true \/ exists l1 l2, l = l1 ++ 34 :: last P [] ++ 34 :: l2 /\ forallb sep l1 = true)).
  { intros lo hi Hlo Hhi H. destruct (Hlow lo Hlo) as [L1 L2]. destruct (Hup hi Hhi) as [U1 U2].
    rewrite HJ in H. apply cut_around in H; [|lia|lia]. destruct H as [Hout Hlen]. rewrite HA, He in Hout.
    exists (firstn lo A), (skipn lo A), r, (firstn (hi - e) C), (skipn (hi - e) C).
    split; [rewrite HJ; rewrite <- (firstn_skipn lo A) at 1; rewrite <- (firstn_skipn (hi - e) C) at 1; same_text|].
    split; [exact Hout|]. split; [exact Hg|]. split.
    - apply forallb_nth. intros j x Hx. apply nth_firstn in Hx. destruct Hx as [Hj Hx]. apply (U2 (e + j)%nat); [lia|].
      rewrite HJ, app_assoc, nth_error_app2 by len. rewrite <- Hx. f_equal. len.
    - destruct ks as [n|].
      + right. destruct n as [|n]; [congruence|]. cbn [pred] in start. unfold start in Est. subst n.
        destruct Hks as ([Hk|(K & l & HK & Hn & Hlt)] & _ & _); [discriminate|]. set (x := last P []) in *. clearbody x.
        injection Hn as Hn.
        assert (HA2 : exists l2, A = K ++ 34 :: x ++ 34 :: l2).
        { destruct (split_at A (length (K ++ 34%N :: x ++ [34%N]))) as (B1 & B2 & HB & HlB); [len|].
          exists B2. rewrite HB. rewrite HJ, HB in HK. replace (K ++ 34 :: x ++ 34 :: l) with ((K ++ 34 :: x ++ [34]) ++ l) in HK by same_text.
          rewrite <- app_assoc in HK. apply app_eq_len in HK; [|exact HlB]. destruct HK as [-> _]. same_text. }
        destruct HA2 as [l2 HA2]. exists (skipn lo K), l2. split.
        * rewrite HA2, skipn_app. replace (lo - length K)%nat with O by lia. reflexivity.
        * apply forallb_nth. intros j y Hy. rewrite nth_skipn in Hy. pose proof (nth_error_ext _ _ _ Hy). apply (L2 (lo + j)%nat); [lia|].
          rewrite HK, nth_error_app1 by lia. exact Hy.
      + left. apply forallb_nth. intros j y Hy. rewrite nth_skipn in Hy. pose proof (nth_error_ext _ _ _ Hy). unfold start in Est.
        apply (L2 (lo + j)%nat); [lia|]. rewrite HJ, nth_error_app1 by lia. exact Hy. }
  destruct (is_open sc && (sc + 2 =? ec)); [apply (Fin s' e'); auto|].
  destruct (ec =? 44) eqn:E44; [apply N.eqb_eq in E44; apply (Fin s' (S (fwd_edge (skipn e' json) e'))); auto|].
  destruct (sc =? 44) eqn:E45; [|discriminate]. apply N.eqb_eq in E45. apply (Fin sedge e'); auto.
Qed.
