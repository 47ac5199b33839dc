(** No function that looks a path up runs off the end of the text.

    The scanner is followed on arbitrary bytes, not only on documents: a path that does not resolve can lead
    it into the middle of a string, so nothing can be said about where it stands except what is below. *)
From Coq Require Import String.
From Verif Require Import GoStd Json Core Errors Api Skip Focus CoreProofs.

Local Open Scope N_scope.

(** ** Texts in which something follows every colon, comma and open bracket *)
Definition live (json : bytes) (i : nat) : Prop :=
  exists j c, (i <= j)%nat /\ nth_error json j = Some c /\ space c = false.

Definition opener (c : N) : Prop := c = 58 \/ c = 44 \/ c = 91 \/ c = 123.

Definition ended (json : bytes) : Prop :=
  live json 0 /\ forall i c, nth_error json i = Some c -> opener c -> live json (S i).

Lemma live_le json i j : (i <= j)%nat -> live json j -> live json i.
Proof. intros H (n & c & Hn & E). exists n, c. split; [lia|exact E]. Qed.

Lemma live_here json i c : nth_error json i = Some c -> space c = false -> live json i.
Proof. intros H E. exists i, c. auto. Qed.

Lemma nth_error_ext {A} (l : list A) i c : nth_error l i = Some c -> (i < length l)%nat.
Proof. intro H. apply nth_error_Some. congruence. Qed.

Lemma skipn_step {A} (l : list A) i c r : c :: r = skipn i l -> nth_error l i = Some c /\ r = skipn (S i) l.
Proof.
  revert l. induction i as [|i IH]; intros [|x l] H; cbn [skipn nth_error] in *; try discriminate.
  - injection H as -> ->. auto.
  - apply IH in H. exact H.
Qed.

Lemma skip_space_inv json : forall rest i, rest = skipn i json -> live json i ->
  exists r c, skip_space rest i = Ok r /\ (i <= r)%nat /\ nth_error json r = Some c /\ space c = false /\
    (r = i \/ exists d, nth_error json (pred r) = Some d /\ space d = true).
Proof.
  induction rest as [|c r IH]; intros i Hr Hl.
  - destruct Hl as (j & c & Hj & E & _). exfalso.
    assert (nth_error (skipn i json) (j - i) = Some c).
    { rewrite <- E. rewrite <- (firstn_skipn i json) at 2. rewrite nth_error_app2; rewrite firstn_length.
      - f_equal. apply nth_error_ext in E. lia.
      - lia. }
    rewrite <- Hr in H. destruct (j - i)%nat; discriminate.
  - apply skipn_step in Hr. destruct Hr as [Hc Hr]. cbn [skip_space]. destruct (space c) eqn:Es.
    + destruct (IH (S i) Hr) as (n & d & E & Hn & Hd & Hs & Hp).
      { destruct Hl as (j & d & Hj & E & E2). exists j, d. split; [|auto].
        destruct (Nat.eq_dec i j) as [->|]; [congruence|lia]. }
      exists n, d. repeat (split; [solve [auto | lia]|]). right. destruct Hp as [->|Hp]; [|exact Hp].
      exists c. auto.
    + exists i, c. repeat (split; [solve [auto | lia]|]). auto.
Qed.

(** ** The array search *)
Lemma arr0_inv json last : forall rest i o, rest = skipn i json -> arr0_loop rest i last = Ok o ->
  match o with
  | Some (j, c) => (i <= j)%nat /\ nth_error json j = Some c /\ is_open c = true /\
      (j = i \/ exists d, nth_error json (pred j) = Some d /\ space d = true)
  | None => live json i -> last = true
  end.
Proof.
  induction rest as [|c r IH]; intros i o Hr H; cbn [arr0_loop] in H.
  - injection H as <-. intros Hl. destruct (skip_space_inv json [] i Hr Hl) as (? & ? & E & _). discriminate.
  - pose proof Hr as Hr0. apply skipn_step in Hr. destruct Hr as [Hc Hr]. destruct (space c) eqn:Es.
    + apply IH in H; [|exact Hr]. destruct o as [[j d]|].
      * destruct H as (H1 & H2 & H3 & H4). repeat (split; [solve [auto | lia]|]). right.
        destruct H4 as [->|H4]; [|exact H4]. exists c. auto.
      * intro Hl. apply H. destruct Hl as (j & d & Hj & E & E2). exists j, d. split; [|auto].
        destruct (Nat.eq_dec i j) as [->|]; [congruence|lia].
    + destruct (is_open c) eqn:Eo.
      * injection H as <-. repeat (split; [solve [auto]|]). auto.
      * destruct last; [|discriminate]. injection H as <-. auto.
Qed.

Lemma arr_inv json last target : forall rest i level inq found cnt o, rest = skipn i json ->
  arr_loop json rest i last target level inq found cnt = Ok o -> (found = true -> last = false) ->
  match o with
  | ALast off => last = true /\ (i < off)%nat /\ nth_error json (pred off) = Some 44
  | ABrace j c => last = false /\ (i <= j)%nat /\ nth_error json j = Some c /\ is_open c = true
  | AEnd => last = false
  end.
Proof.
  induction rest as [|c r IH]; intros i level inq found cnt o Hr H Hf; cbn [arr_loop] in H.
  - destruct found; [|discriminate]. injection H as <-. auto.
  - apply skipn_step in Hr. destruct Hr as [Hc Hr].
    assert (Go : forall level inq found cnt, arr_loop json r (S i) last target level inq found cnt = Ok o ->
      (found = true -> last = false) ->
      match o with
      | ALast off => last = true /\ (i < off)%nat /\ nth_error json (pred off) = Some 44
      | ABrace j c => last = false /\ (i <= j)%nat /\ nth_error json j = Some c /\ is_open c = true
      | AEnd => last = false
      end).
    { intros l q f n E F. specialize (IH (S i) l q f n o Hr E F).
      destruct o; intuition lia. }
    destruct (c =? 34); [eapply Go; eauto|].
    destruct inq; [eapply Go; eauto|].
    destruct (negb found && (level =? 1)%nat && (c =? 44)) eqn:E1.
    + nbool. subst c. destruct (Z.of_nat (S cnt) =? target)%Z; [|eapply Go; eauto].
      destruct (match next_nonspace r with Some d => negb (is_open d) && negb last | None => false end); [discriminate|].
      destruct last; [injection H as <-; cbn; auto|]. eapply Go; eauto.
    + destruct (is_open c) eqn:Eo.
      * destruct found; [|eapply Go; eauto]. injection H as <-. auto.
      * destruct (is_close c); [|eapply Go; eauto]. destruct (level <? 2)%nat; [discriminate|]. eapply Go; eauto.
Qed.

Lemma arr0_no_panic last : forall rest i, arr0_loop rest i last <> Panic.
Proof.
  induction rest as [|c r IH]; intro i; cbn [arr0_loop]; [discriminate|].
  destruct (space c); [apply IH|]. destruct (is_open c); [discriminate|]. destruct last; discriminate.
Qed.

Lemma arr_no_panic json last target : forall rest i level inq found cnt,
  arr_loop json rest i last target level inq found cnt <> Panic.
Proof.
  induction rest as [|c r IH]; intros i level inq found cnt; cbn [arr_loop]; [destruct found; discriminate|].
  repeat match goal with
         | |- (if ?x then _ else _) <> _ => destruct x
         | |- (let x := ?v in _) <> _ => cbv zeta
         end; try apply IH; discriminate.
Qed.

(** ** The outer loop *)
Section Run.
  Variables (json : bytes) (path : list bytes) (o : nat).
  Hypothesis EN : ended json.

  (** The state between two turns, and the state after the last one. *)
  Definition good (st : cst) : Prop :=
    (o <= offset st)%nat /\ live json (offset st) /\ In (cur st) path /\ keyst st = None /\
    (brace st = 91 -> nth_error json (offset st) = Some 91).

  Definition before (off : nat) : Prop :=
    exists c, nth_error json (pred off) = Some c /\ (c = 58 \/ c = 44 \/ c = 91 \/ space c = true).

  Definition mark (st : cst) : Prop :=
    match keyst st with
    | None => True
    | Some s => (s = O /\ exists x r, In x path /\ json = x ++ r) \/ (2 <= s <= length json)%nat
    end.

  Definition fin (st : cst) : Prop :=
    (o < offset st)%nat /\ live json (offset st) /\ before (offset st) /\ mark st.

  Lemma nth_error_S k : S k <> length path -> (k < length path)%nat -> exists p, nth_error path (S k) = Some p /\ In p path.
  Proof.
    intros H1 H2. destruct (nth_error path (S k)) as [p|] eqn:E.
    - exists p. split; [reflexivity|]. eapply nth_error_In. exact E.
    - apply nth_error_None in E. lia.
  Qed.

  Lemma open_live c j : nth_error json j = Some c -> is_open c = true -> live json j.
  Proof. intros H E. apply (live_here _ _ c H). apply open_cases in E. destruct E; subst; reflexivity. Qed.

  Lemma arr_step_inv k st : (k < length path)%nat -> good st -> brace st = 91 ->
    arr_step json path k st <> Panic /\
    forall st', arr_step json path k st = Ok st' -> if (S k =? length path)%nat then fin st' else good st'.
  Proof.
    intros Hk (Ho & Hl & Hc & Hks & Hb) Hbr. specialize (Hb Hbr).
    assert (Hl2 : live json (S (offset st))) by (apply (proj2 EN) with 91; [exact Hb|unfold opener; auto]).
    unfold arr_step. destruct (atoi (cur st)) as [idx|]; [|split; intros; discriminate].
    destruct (idx =? 0)%Z.
    - set (l := (S k =? length path)%nat).
      pose proof (arr0_no_panic l (skipn (S (offset st)) json) (S (offset st))) as NP.
      destruct (arr0_loop (skipn (S (offset st)) json) (S (offset st)) l) as [oo| |] eqn:E; cbn [bind]; [|split; intros; discriminate|contradiction].
      apply (arr0_inv json) in E; [|reflexivity]. destruct oo as [[i c]|].
      + destruct E as (H1 & H2 & H3 & H4).
        assert (Bf : before i).
        { destruct H4 as [->|(d & E1 & E2)]; [exists 91; cbn [pred]; auto|exists d; auto]. }
        pose proof (open_live c i H2 H3) as Hi.
        destruct l eqn:El.
        * split; [discriminate|]. intros st' [= <-]. unfold fin, mark. cbn [offset keyst].
          rewrite Hks. repeat split; [lia|exact Hi|exact Bf].
        * destruct (nth_error_S k) as (p & Ep & Hp); [apply Nat.eqb_neq; exact El|exact Hk|]. rewrite Ep.
          split; [discriminate|]. intros st' [= <-]. unfold good. cbn [offset keyst cur brace].
          repeat split; [lia|exact Hi|exact Hp|exact Hks|]. intros ->. exact H2.
      + split; [discriminate|]. intros st' [= <-]. rewrite (E Hl2). unfold fin, mark. cbn [offset keyst].
        rewrite Hks. repeat split; [lia|exact Hl2|]. exists 91. cbn [pred]. auto.
    - set (l := (S k =? length path)%nat).
      pose proof (arr_no_panic json l idx (skipn (offset st) json) (offset st) 0 false false 0) as NP.
      destruct (arr_loop json (skipn (offset st) json) (offset st) l idx 0 false false 0) as [oo| |] eqn:E; cbn [bind]; [|split; intros; discriminate|contradiction].
      apply arr_inv in E; [|reflexivity|discriminate]. destruct oo as [off|i c|].
      + destruct E as (El & E1 & E2). split; [discriminate|]. intros st' [= <-]. fold l. rewrite El.
        assert (Eo : S (pred off) = off) by lia.
        unfold fin, mark. cbn [offset keyst]. rewrite Hks. repeat split; [lia| |].
        * rewrite <- Eo. apply (proj2 EN) with 44; [exact E2|unfold opener; auto].
        * exists 44. auto.
      + destruct E as (El & E1 & E2 & E3).
        destruct (nth_error_S k) as (p & Ep & Hp); [apply Nat.eqb_neq; exact El|exact Hk|]. rewrite Ep.
        split; [discriminate|]. intros st' [= <-]. fold l. rewrite El. unfold good. cbn [offset keyst cur brace].
        repeat split; [lia|exact (open_live c i E2 E3)|exact Hp|exact Hks|]. intros ->. exact E2.
      + split; [discriminate|]. intros st' [= <-]. fold l. rewrite E. unfold good. repeat split; auto.
  Qed.

  Lemma key_match_prefix e x : key_match json x O e = true -> exists r, json = x ++ r.
  Proof.
    unfold key_match. intro H. apply andb_true_iff in H. destruct H as [_ H]. apply bytes_eqb_eq in H.
    cbn [skipn] in H. exists (skipn (length x) json). rewrite <- H at 1. symmetry. apply firstn_skipn.
  Qed.

  Lemma key_loop_inv : forall rest i resume k level found inq s e st, rest = skipn i json ->
    (k < length path)%nat -> (found = true -> S k <> length path) -> good st -> brace st <> 91 -> (o <= i)%nat ->
    (i = O -> level <> S k) -> (s = O \/ (2 <= s <= length json)%nat) ->
    key_loop json path rest i resume k level found inq s e st <> Panic /\
    forall k' st', key_loop json path rest i resume k level found inq s e st = Ok (k', st') ->
      (k' < length path)%nat /\ if (S k' =? length path)%nat then fin st' else good st'.
  Proof.
    induction rest as [|c r IH]; intros i resume k level found inq s e st Hr Hk Hf Hg Hb Hi Hlev Hs; cbn [key_loop].
    - destruct found; [|split; intros; discriminate]. split; [discriminate|]. intros k' st' [= <- <-].
      split; [exact Hk|]. rewrite (proj2 (Nat.eqb_neq _ _) (Hf eq_refl)). exact Hg.
    - apply skipn_step in Hr. destruct Hr as [Hc Hr].
      assert (Hlen : (i < length json)%nat) by (apply nth_error_ext in Hc; exact Hc).
      assert (Go : forall resume level inq s e, (s = O \/ (2 <= s <= length json)%nat) ->
        key_loop json path r (S i) resume k level found inq s e st <> Panic /\
        forall k' st', key_loop json path r (S i) resume k level found inq s e st = Ok (k', st') ->
          (k' < length path)%nat /\ if (S k' =? length path)%nat then fin st' else good st').
      { intros. apply IH; auto; lia. }
      destruct (i <? resume)%nat; [apply Go; exact Hs|].
      destruct (c =? 34).
      { destruct found; [apply Go; exact Hs|].
        destruct (level =? S k)%nat eqn:El; cbn [negb]; [|apply Go; exact Hs].
        apply Nat.eqb_eq in El.
        assert (Hi1 : i <> O) by (intro; exact (Hlev H El)).
        destruct (qscan json i) as [[]|]; [| |];
          try (destruct (negb inq); apply Go; solve [exact Hs | right; lia]);
          try (apply Go; exact Hs);
          destruct inq; apply Go; solve [exact Hs | right; lia]. }
      destruct inq; [apply Go; exact Hs|].
      destruct ((level =? S k)%nat && (c =? 58)) eqn:Ecol.
      { nbool. subst c. assert (Hl2 : live json (S i)) by (apply (proj2 EN) with 58; [exact Hc|unfold opener; auto]).
        destruct (key_match json (cur st) s e) eqn:Em.
        - destruct (S k =? length path)%nat eqn:Ek.
          + split; [discriminate|]. intros k' st' [= <- <-]. split; [exact Hk|]. rewrite Ek.
            unfold fin, mark. cbn [offset keyst]. repeat split; [lia|exact Hl2|exists 58; cbn [pred]; auto|].
            destruct Hs as [->|Hs]; [left|right; exact Hs]. split; [reflexivity|].
            destruct (key_match_prefix e (cur st) Em) as [x Ex]. exists (cur st), x. split; [apply Hg|exact Ex].
          + destruct Hg as (G1 & G2 & G3 & G4 & G5). apply IH; auto; try lia.
            * intros _. apply Nat.eqb_neq. exact Ek.
            * unfold good. cbn [offset brace cur keyst]. repeat split; auto; try lia; try (intro; contradiction).
        - destruct (jump_loop json r (S i) k level false); [apply Go; exact Hs|split; intros; discriminate|apply Go; exact Hs]. }
      destruct (c =? 91) eqn:E91.
      { nbool. subst c. destruct found; [|apply Go; exact Hs].
        destruct (nth_error_S k (Hf eq_refl) Hk) as (p & Ep & Hp). rewrite Ep. split; [discriminate|].
        intros k' st' [= <- <-]. split; [exact Hk|]. rewrite (proj2 (Nat.eqb_neq _ _) (Hf eq_refl)).
        destruct Hg as (G1 & G2 & G3 & G4 & G5). unfold good. cbn [offset brace cur keyst].
        repeat split; auto. apply (live_here _ _ 91); [exact Hc|reflexivity]. }
      destruct (c =? 123).
      { destruct found; [|apply Go; exact Hs].
        destruct (nth_error_S k (Hf eq_refl) Hk) as (p & Ep & Hp). rewrite Ep.
        apply nth_error_ext in Ep. apply IH; auto; try lia; try discriminate.
        - destruct Hg as (G1 & G2 & G3 & G4 & G5). unfold good. cbn [offset brace cur keyst]. repeat split; auto. }
      destruct (is_close c); [|apply Go; exact Hs].
      destruct (level <? S k)%nat; [split; intros; discriminate|]. apply Go; exact Hs.
  Qed.

  Lemma OUT_inv : forall n k st, (length path - k = n)%nat -> (k <= length path)%nat ->
    (if (k =? length path)%nat then fin st else good st) ->
    OUT json path k st <> Panic /\ forall st', OUT json path k st = Ok st' -> fin st'.
  Proof.
    intro n. induction n as [n IH] using (well_founded_induction lt_wf). intros k st Hn Hk Hst.
    destruct (k =? length path)%nat eqn:Ek.
    - apply Nat.eqb_eq in Ek. rewrite OUT_end by lia. split; [discriminate|]. intros st' [= <-]. exact Hst.
    - apply Nat.eqb_neq in Ek. destruct (N.eq_dec (brace st) 91) as [Hb|Hb].
      + rewrite OUT_arr by (auto; lia). destruct (arr_step_inv k st ltac:(lia) Hst Hb) as [NP H].
        destruct (arr_step json path k st) as [st'| |] eqn:Es; cbn [bind]; [|split; intros; discriminate|contradiction].
        specialize (H st' eq_refl). apply (IH (length path - S k)%nat ltac:(lia) (S k) st' eq_refl ltac:(lia)). exact H.
      + rewrite OUT_key by (auto; lia). unfold RK.
        destruct (key_loop_inv (skipn (offset st) json) (offset st) 0 k k false false 0 0 st) as [NP H]; auto; try lia.
        { apply Hst. }
        destruct (key_loop json path (skipn (offset st) json) (offset st) 0 k k false false 0 0 st) as [[k' st']| |] eqn:Es;
          cbn [bind]; [|split; intros; discriminate|contradiction].
        destruct (H k' st' eq_refl) as [Hk' Hst']. pose proof (key_loop_ge _ _ _ _ _ _ _ _ _ _ _ _ _ _ Es).
        apply (IH (length path - S k')%nat ltac:(lia) (S k') st' eq_refl ltac:(lia)). exact Hst'.
  Qed.
End Run.

(** ** The end of the value *)
Lemma close_end json : forall rest i level inq e, rest = skipn i json -> close_loop json rest i level inq = Some e ->
  (i < e <= length json)%nat /\ exists c, nth_error json (pred e) = Some c /\ is_close c = true.
Proof.
  induction rest as [|c r IH]; intros i level inq e Hr H; cbn [close_loop] in H; [discriminate|].
  apply skipn_step in Hr. destruct Hr as [Hc Hr]. pose proof (nth_error_ext _ _ _ Hc).
  repeat match type of H with (if ?x then _ else _) = _ => destruct x eqn:? end;
    try (apply IH in H; [|exact Hr]; destruct H; split; [lia|assumption]).
  injection H as <-. cbn [pred]. split; [lia|]. exists c. auto.
Qed.

Lemma quote_end json : forall n rest i e, (length rest <= n)%nat -> rest = skipn i json -> quote_loop rest i = Some e ->
  (i <= e < length json)%nat.
Proof.
  induction n as [|n IH]; intros rest i e Hn Hr H; destruct rest as [|c r]; cbn [quote_loop length] in *; try discriminate; [lia|].
  apply skipn_step in Hr. destruct Hr as [Hc Hr]. pose proof (nth_error_ext _ _ _ Hc).
  destruct (c =? 92).
  - destruct r as [|d r']; [discriminate|]. apply skipn_step in Hr. destruct Hr as [Hd Hr].
    apply IH in H; [lia|cbn in Hn; lia|exact Hr].
  - destruct (c =? 34); [injection H as <-; lia|]. apply IH in H; [lia|lia|exact Hr].
Qed.

Lemma token_end json : forall rest i e, rest = skipn i json -> token_loop rest i = Some e -> (i <= e < length json)%nat.
Proof.
  induction rest as [|c r IH]; intros i e Hr H; cbn [token_loop] in H; [discriminate|].
  apply skipn_step in Hr. destruct Hr as [Hc Hr]. pose proof (nth_error_ext _ _ _ Hc).
  destruct (space c || (c =? 44) || (c =? 93) || (c =? 125)); [injection H as <-; lia|]. apply IH in H; [lia|exact Hr].
Qed.

(** What [value_end] returns when it stands at position [off]. *)
Definition bounds (json : bytes) (off s e : nat) : Prop :=
  (off <= s <= e)%nat /\ (s < length json)%nat /\
  ((s = S off /\ nth_error json off = Some 34 /\ (e < length json)%nat) \/
   (s = off /\ (e < length json)%nat) \/
   (s = off /\ close_loop json (skipn off json) off 0 false = Some e /\ exists c, nth_error json off = Some c /\ is_open c = true)).

Lemma value_end_inv json ks off : (off < length json)%nat ->
  value_end json ks off <> Panic /\
  forall ks' s e, value_end json ks off = Ok (ks', s, e) -> ks' = ks /\ bounds json off s e /\ (e <= length json)%nat.
Proof.
  intro Ho. unfold value_end, at_. destruct (nth_error json off) as [c|] eqn:Ec; [|apply nth_error_None in Ec; lia].
  cbn [bind]. destruct (is_open c) eqn:Eo.
  - destruct (close_loop json (skipn off json) off 0 false) as [e|] eqn:E; [|split; intros; discriminate].
    split; [discriminate|]. intros ks' s e' [= <- <- <-]. split; [reflexivity|].
    pose proof E as E1. apply close_end in E1; [|reflexivity]. destruct E1 as [E1 _]. split; [|lia].
    unfold bounds. split; [lia|]. split; [lia|]. right. right. split; [reflexivity|]. split; [exact E|]. exists c. auto.
  - destruct (c =? 34) eqn:E34.
    + nbool. subst c. destruct (quote_loop (skipn (S off) json) (S off)) as [e|] eqn:E; [|split; intros; discriminate].
      split; [discriminate|]. intros ks' s e' [= <- <- <-]. split; [reflexivity|].
      apply (quote_end json _ _ _ _ (le_n _) eq_refl) in E. split; [|lia]. unfold bounds. split; [lia|]. split; [lia|].
      left. split; [reflexivity|]. split; [exact Ec|lia].
    + destruct (token_loop (skipn off json) off) as [e|] eqn:E; [|split; intros; discriminate].
      apply (token_end json) in E; [|reflexivity].
      destruct (e =? off)%nat; [split; intros; discriminate|].
      split; [discriminate|]. intros ks' s e' [= <- <- <-]. split; [reflexivity|]. split; [|lia]. unfold bounds. repeat split; try lia; auto.
Qed.

(** ** [core] *)
Definition first_at (json : bytes) (o : nat) : Prop := skip_space json 0 = Ok o.

(** [spot json path ks off]: what is known of the position [off] the path leads to. *)
Definition spot (json : bytes) (path : list bytes) (ks : option nat) (off : nat) : Prop :=
  (exists o, first_at json o /\ (o < off)%nat) /\ (off < length json)%nat /\
  (exists c, nth_error json off = Some c /\ space c = false) /\ before json off /\
  match ks with
  | None => True
  | Some s => (s = O /\ exists x r, In x path /\ json = x ++ r) \/ (2 <= s <= length json)%nat
  end.

Lemma core_inv json path : ended json -> path <> [] ->
  core json true path <> Panic /\ core json false path <> Panic /\
  (forall ks s e, core json true path = Ok (ks, s, e) -> spot json path ks s) /\
  (forall ks s e, core json false path = Ok (ks, s, e) -> (e <= length json)%nat /\
     exists off, spot json path ks off /\ bounds json off s e).
Proof.
  intros EN Hp. unfold core. destruct (length json <? 2)%nat eqn:El; [repeat split; intros; discriminate|].
  destruct path as [|p0 path]; [contradiction|].
  destruct (skip_space_inv json json 0 eq_refl (proj1 EN)) as (o & c & E & Ho & Hc & Hs & _). rewrite E. cbn [bind].
  unfold at_ at 1 2 3 4. rewrite Hc. cbn [bind].
  destruct (OUT_inv json (p0 :: path) o EN _ 0 (CSt o c p0 None) eq_refl) as [NP H].
  { lia. }
  { unfold good. cbn [Nat.eqb length offset cur keyst brace]. repeat split; [lia| |left; reflexivity|].
    - exact (live_here _ _ c Hc Hs).
    - intros ->. exact Hc. }
  unfold OUT in NP, H. cbn [skipn] in NP, H.
  destruct (outer json (p0 :: path) (p0 :: path) 0 0 (CSt o c p0 None)) as [st| |] eqn:Eo; cbn [bind];
    [|repeat split; intros; discriminate|contradiction].
  specialize (H st eq_refl). destruct H as (F1 & F2 & F3 & F4).
  destruct (offset st =? 0)%nat eqn:E0; [repeat split; intros; discriminate|].
  destruct (skip_space_inv json _ (offset st) eq_refl F2) as (off & d & E2 & G1 & G2 & G3 & G4). rewrite E2. cbn [bind].
  assert (SP : spot json (p0 :: path) (keyst st) off).
  { unfold spot. split; [exists o; split; [exact E|lia]|]. split; [eapply nth_error_ext; exact G2|].
    split; [exists d; auto|]. split; [|exact F4].
    destruct G4 as [->|(x & X1 & X2)]; [exact F3|exists x; auto]. }
  destruct (value_end_inv json (keyst st) off) as [NV HV]; [eapply nth_error_ext; exact G2|].
  split; [discriminate|]. split; [exact NV|]. split; intros ks s e H.
  - injection H as <- <- <-. exact SP.
  - apply HV in H. destruct H as (-> & H & H2). split; [exact H2|]. exists off. auto.
Qed.

(** A result of [core] lies inside the text, after the first byte. *)
Lemma core_range json path ks s e : ended json -> path <> [] -> core json false path = Ok (ks, s, e) ->
  (1 <= s <= e)%nat /\ (s < length json)%nat /\ (e <= length json)%nat /\
  forall c, nth_error json (pred s) = Some c -> c = 34 -> (e < length json)%nat /\ (2 <= s)%nat.
Proof.
  intros EN Hp H. destruct (core_inv json path EN Hp) as (_ & _ & _ & HI). apply HI in H.
  destruct H as (He & off & ((o & Ho & Ho2) & Hoff & _ & (c & Hc & Hcc) & _) & (B1 & B2 & B3)).
  repeat split; try lia; intros; subst.
  - destruct B3 as [(-> & _ & ?)|[(-> & ?)|(-> & _)]]; [lia|lia|]. rewrite Hc in H. injection H as ->.
    exfalso. intuition discriminate.
  - destruct B3 as [(-> & _)|[(-> & _)|(-> & _)]]; [lia| |]; rewrite Hc in H; injection H as ->;
      exfalso; intuition discriminate.
Qed.

(** ** The functions, on any text in which something follows every colon, comma and open bracket *)
Lemma replace_ok json new s e : (s <= length json)%nat -> (e <= length json)%nat -> done_replace json new s e <> UPanic.
Proof.
  intros H1 H2. unfold done_replace, replace. apply Nat.leb_le in H1, H2. rewrite H1, H2. discriminate.
Qed.

Lemma at_ok json i : (i < length json)%nat -> exists c, at_ json i = Ok c /\ nth_error json i = Some c.
Proof. intro H. unfold at_. destruct (nth_error json i) eqn:E; [eauto|apply nth_error_None in E; lia]. Qed.

Lemma at_pred_ok json i : (1 <= i <= length json)%nat -> exists c, at_pred json i = Ok c /\ nth_error json (pred i) = Some c.
Proof. intro H. destruct i; [lia|]. cbn [at_pred pred]. apply at_ok. lia. Qed.

Section Total.
  Variable json : bytes.
  Hypothesis EN : ended json.

  Lemma core_total js path : path <> [] -> core json js path <> Panic.
  Proof. intro H. destruct js; apply (core_inv json path EN H). Qed.

  Lemma app_not_nil (path : list bytes) k : path ++ [k] <> [].
  Proof. destruct path; discriminate. Qed.

  Lemma Get_total path : Get json path <> Panic.
  Proof.
    unfold Get. destruct path as [|p path]; [discriminate|].
    pose proof (core_total false (p :: path) ltac:(discriminate)) as NP.
    destruct (core json false (p :: path)) as [[[ks s] e]| |] eqn:E; cbn [bind]; [|discriminate|contradiction].
    apply core_range in E; [|exact EN|discriminate]. destruct E as (E1 & E2 & E3 & _).
    unfold slice. rewrite (proj2 (Nat.leb_le s e)), (proj2 (Nat.leb_le e _)) by lia. discriminate.
  Qed.

  Lemma set_span_total path ks s e new : path <> [] -> core json false path = Ok (ks, s, e) -> set_span json new s e <> UPanic.
  Proof.
    intros Hp E. apply core_range in E; [|exact EN|exact Hp]. destruct E as (E1 & E2 & E3 & E4).
    unfold set_span. destruct (at_pred_ok json s) as (c & Ec & Hc); [lia|]. rewrite Ec. cbn [pbind].
    destruct (c =? 34) eqn:E34.
    - nbool. destruct (E4 c Hc E34) as [He _]. destruct (at_ok json e He) as (d & Ed & _). rewrite Ed. cbn [pbind].
      destruct (d =? 34); apply replace_ok; lia.
    - apply replace_ok; lia.
  Qed.

  Lemma Set_total new path : Set_ json new path <> UPanic.
  Proof.
    unfold Set_. destruct path as [|p path]; [discriminate|].
    pose proof (core_total false (p :: path) ltac:(discriminate)) as NP.
    destruct (core json false (p :: path)) as [[[ks s] e]| |] eqn:E; cbn [ubind]; [|discriminate|contradiction].
    eapply set_span_total; [|exact E]. discriminate.
  Qed.

  (** Where the braces of the target are. *)
  Lemma root_first_ok op ex : forall rest i n, root_first (length json) op ex rest i = Ok n ->
    n = O \/ (n < i + length rest)%nat.
  Proof.
    induction rest as [|c r IH]; intros i n H; cbn [root_first length] in *; [injection H as <-; auto|].
    destruct (space c); [apply IH in H; destruct H; [auto|right; lia]|].
    destruct (c =? op); [|discriminate]. destruct (S i =? length json)%nat; [discriminate|]. injection H as <-. right. lia.
  Qed.

  Lemma root_first_no_panic op ex : forall rest i, root_first (length json) op ex rest i <> Panic.
  Proof.
    induction rest as [|c r IH]; intros i; cbn [root_first]; [discriminate|].
    destruct (space c); [apply IH|]. destruct (c =? op); [|discriminate]. destruct (S i =? length json)%nat; discriminate.
  Qed.

  Lemma root_last_ok cl ex : forall rest n m, root_last cl ex rest n = Ok m -> (m <= n)%nat /\ (m = O -> forallb space (firstn n rest) = true).
  Proof.
    induction rest as [|c r IH]; intros n m H; cbn [root_last] in *; [injection H as <-; rewrite firstn_nil; split; [lia|reflexivity]|].
    destruct n as [|i]; [injection H as <-; split; [lia|reflexivity]|].
    destruct (space c) eqn:Es; [apply IH in H; cbn [firstn forallb]; rewrite Es; cbn [andb]; destruct H; split; [lia|assumption]|].
    destruct (c =? cl); [|discriminate]. destruct (i =? 0)%nat; [discriminate|]. injection H as <-. split; [lia|discriminate].
  Qed.

  Lemma root_last_no_panic cl ex : forall rest n, root_last cl ex rest n <> Panic.
  Proof.
    induction rest as [|c r IH]; intros n; cbn [root_last]; [discriminate|].
    destruct n as [|i]; [discriminate|].
    destruct (space c); [apply IH|]. destruct (c =? cl); [|discriminate]. destruct (i =? 0)%nat; discriminate.
  Qed.

  Lemma live_length : (0 < length json)%nat.
  Proof. destruct EN as [(j & c & _ & H & _) _]. apply nth_error_ext in H. lia. Qed.

  Lemma live_not_blank : forallb space json = false.
  Proof.
    destruct EN as [(j & c & _ & H & Hs) _]. destruct (forallb space json) eqn:E; [|reflexivity].
    rewrite forallb_forall in E. apply nth_error_In in H. rewrite (E _ H) in Hs. discriminate.
  Qed.

  Lemma target_ok op cl ex path : target_span json op cl ex path <> Panic /\
    forall s e, target_span json op cl ex path = Ok (s, e) -> (s < length json)%nat /\ (1 <= e <= length json)%nat.
  Proof.
    unfold target_span. destruct path as [|p path].
    - unfold root_span. pose proof (root_first_no_panic op ex json 0) as N1.
      destruct (root_first (length json) op ex json 0) as [s| |] eqn:E1; cbn [bind]; [|split; intros; discriminate|contradiction].
      pose proof (root_last_no_panic cl ex (rev json) (length json)) as N2.
      destruct (root_last cl ex (rev json) (length json)) as [e| |] eqn:E2; cbn [bind]; [|split; intros; discriminate|contradiction].
      split; [discriminate|]. intros s' e' [= <- <-]. apply root_first_ok in E1. apply root_last_ok in E2.
      pose proof live_length. destruct E2 as [E2 E3]. split; [lia|]. split; [|lia].
      destruct e; [|lia]. specialize (E3 eq_refl). rewrite firstn_all2 in E3 by (rewrite rev_length; lia).
      pose proof live_not_blank as B. exfalso. rewrite <- (rev_involutive json) in B.
      assert (forallb space (rev (rev json)) = true); [|congruence].
      apply forallb_forall. intros x Hx. apply in_rev in Hx. rewrite rev_involutive in *.
      rewrite forallb_forall in E3. apply E3. rewrite <- in_rev. rewrite <- in_rev in Hx. exact Hx.
    - pose proof (core_total false (p :: path) ltac:(discriminate)) as NP.
      destruct (core json false (p :: path)) as [[[ks s] e]| |] eqn:E; cbn [bind]; [|split; intros; discriminate|contradiction].
      split; [discriminate|]. intros s' e' [= <- <-]. apply core_range in E; [|exact EN|discriminate]. lia.
  Qed.

  Lemma braces_ok s e op cl : (s < length json)%nat -> (1 <= e <= length json)%nat -> exists x, braces_at json s e op cl = Ok x.
  Proof.
    intros H1 H2. unfold braces_at. destruct (at_ok json s H1) as (c & Ec & _). rewrite Ec. cbn [bind].
    destruct (c =? op); [|eauto]. destruct (at_pred_ok json e H2) as (d & Ed & _). rewrite Ed. cbn [bind]. eauto.
  Qed.

  Lemma AddKeyValue_total key value path : AddKeyValue json key value path <> UPanic.
  Proof.
    unfold AddKeyValue. cbv zeta. destruct (length json <? 2)%nat; [discriminate|].
    destruct (target_ok 123 125 EObjectExpected path) as [NP H].
    destruct (target_span json 123 125 EObjectExpected path) as [[s e]| |]; cbn [ubind]; [|discriminate|contradiction].
    specialize (H s e eq_refl). destruct H as [Hs He].
    destruct (braces_ok s e 123 125 Hs He) as [x ->]. cbn [pbind]. destruct x; [|discriminate].
    destruct (blank_between json s e); [apply replace_ok; lia|].
    pose proof (core_total false (path ++ [key]) (app_not_nil _ _)) as N2.
    destruct (core json false (path ++ [key])) as [?|er|]; [discriminate| |contradiction].
    destruct (err_equal (Some er) 8); [apply replace_ok; lia|discriminate].
  Qed.

  Lemma Add_total value path : Add_ json value path <> UPanic.
  Proof.
    unfold Add_. destruct (length json <? 2)%nat; [discriminate|].
    destruct (target_ok 91 93 EArrayExpected path) as [NP H].
    destruct (target_span json 91 93 EArrayExpected path) as [[s e]| |]; cbn [ubind]; [|discriminate|contradiction].
    specialize (H s e eq_refl). destruct H as [Hs He].
    destruct (braces_ok s e 91 93 Hs He) as [x ->]. cbn [pbind]. destruct x; [|discriminate].
    destruct (blank_between json s e); apply replace_ok; lia.
  Qed.

  Lemma Store_total key value path : Store json key value path <> UPanic.
  Proof.
    unfold Store. pose proof (core_total false (path ++ [key]) (app_not_nil _ _)) as NP.
    destruct (core json false (path ++ [key])) as [[[ks s] e]|er|] eqn:E; [| |contradiction].
    - eapply set_span_total; [apply app_not_nil|exact E].
    - destruct (err_equal (Some er) 8); [apply AddKeyValue_total|discriminate].
  Qed.
End Total.
