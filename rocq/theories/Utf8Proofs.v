(** Proofs for C75. *)
From Coq Require Import String.
From Verif Require Import GoStd Json Core Errors Api SpecUtf8 Skip Focus CoreProofs SpecSplice NoPanic Splice.

Local Open Scope N_scope.

(** ** Cutting at a byte below 128 *)
Lemma encode_high c : 128 <= c -> Forall (fun x => 128 <= x) (encode c).
Proof.
  intro H. unfold encode. destruct (c <? 128) eqn:E; [apply N.ltb_lt in E; lia|].
  assert (K : forall k x, 128 <= k -> 128 <= k + x) by (intros; lia).
  destruct (c <? 2048); [|destruct (c <? 65536)]; repeat (apply Forall_cons; [apply K; discriminate|]); apply Forall_nil.
Qed.
Lemma encode_low c : c < 128 -> encode c = [c].
Proof. intro H. unfold encode. apply N.ltb_lt in H. rewrite H. reflexivity. Qed.

Lemma utf8_nil : utf8 []. Proof. exists []. split; constructor. Qed.
Lemma utf8_app x y : utf8 x -> utf8 y -> utf8 (x ++ y).
Proof. intros (c1 & H1 & ->) (c2 & H2 & ->). exists (c1 ++ c2). split; [apply Forall_app; auto|]. symmetry. apply flat_map_app. Qed.
Lemma utf8_low c : c < 128 -> utf8 [c].
Proof. intro H. exists [c]. split; [constructor; [left; lia|constructor]|]. cbn. rewrite (encode_low c H). reflexivity. Qed.
Lemma utf8_cons c x : c < 128 -> utf8 x -> utf8 (c :: x).
Proof. intros. apply (utf8_app [c] x); [apply utf8_low|]; assumption. Qed.
Lemma utf8_all_low x : Forall (fun c => c < 128) x -> utf8 x.
Proof. induction 1; [apply utf8_nil|apply utf8_cons; assumption]. Qed.

Lemma high_split : forall x B A c C, Forall (fun d => 128 <= d) x -> c < 128 -> x ++ B = A ++ c :: C -> exists A', A = x ++ A' /\ B = A' ++ c :: C.
Proof.
  induction x as [|d x IH]; intros B A c C Hx Hc E; [exists A; auto|]. inversion Hx as [|? ? Hd Hx']; subst.
  destruct A as [|a A]; cbn in E; injection E as E1 E2; [lia|]. subst a.
  destruct (IH B A c C Hx' Hc E2) as (A' & -> & H). exists A'. auto.
Qed.
Lemma utf8_cut : forall A c C, c < 128 -> utf8 (A ++ c :: C) -> utf8 A /\ utf8 C.
Proof.
  intros A c C Hc (cs & Hcs & E). revert A E. induction cs as [|d cs IH]; intros A E; cbn [flat_map] in E; [destruct A; discriminate|].
  inversion Hcs as [|? ? Hd Hcs']; subst. specialize (IH Hcs').
  destruct (N.lt_ge_cases d 128) as [L|L].
  - rewrite (encode_low d L) in E. destruct A as [|a A]; cbn in E; injection E as E1 E2.
    + subst. split; [apply utf8_nil|]. exists cs. auto.
    + subst a. destruct (IH A E2) as [H1 H2]. split; [apply utf8_cons; assumption|exact H2].
  - symmetry in E. destruct (high_split _ _ _ _ _ (encode_high d L) Hc E) as (A' & -> & E'). destruct (IH A' (eq_sym E')) as [H1 H2].
    split; [|exact H2]. apply utf8_app; [|exact H1]. exists [d]. split; [constructor; [exact Hd|constructor]|]. cbn. symmetry. apply app_nil_r.
Qed.

(** A position where the text can be cut *)
Definition cut (json : bytes) (n : nat) : Prop := utf8 (firstn n json) /\ utf8 (skipn n json).
Lemma cut_at json n c : utf8 json -> nth_error json n = Some c -> c < 128 -> cut json n /\ cut json (S n).
Proof.
  intros Hu Hn Hc. destruct (split_nth _ _ _ Hn) as (A & C & -> & HA). destruct (utf8_cut A c C Hc Hu) as [H1 H2]. split; split.
  - rewrite firstn_at by exact HA. exact H1.
  - rewrite skipn_app_len by exact HA. apply utf8_cons; assumption.
  - replace (A ++ c :: C) with ((A ++ [c]) ++ C) by (rewrite <- app_assoc; reflexivity). rewrite firstn_at by (rewrite app_length; cbn; lia). apply utf8_app; [exact H1|apply utf8_low, Hc].
  - replace (A ++ c :: C) with ((A ++ [c]) ++ C) by (rewrite <- app_assoc; reflexivity). rewrite skipn_app_len by (rewrite app_length; cbn; lia). exact H2.
Qed.
Lemma cut_before json n c : utf8 json -> nth_error json n = Some c -> c < 128 -> cut json n. Proof. intros. eapply cut_at; eassumption. Qed.
Lemma cut_after json n c : utf8 json -> nth_error json (pred n) = Some c -> c < 128 -> n <> O -> cut json n.
Proof. intros Hu Hn Hc H0. replace n with (S (pred n)) by lia. eapply cut_at; eassumption. Qed.
Lemma cut_0 json : utf8 json -> cut json 0. Proof. intro. split; [apply utf8_nil|assumption]. Qed.
Lemma replace_utf8 json new s e out : cut json s -> cut json e -> utf8 new -> replace json new s e = Ok out -> utf8 out.
Proof. intros [H1 _] [_ H2] Hn H. unfold replace in H. destruct (_ && _)%bool; [|discriminate]. injection H as <-. repeat apply utf8_app; assumption. Qed.
Lemma done_utf8 json new s e out : cut json s -> cut json e -> utf8 new -> done_replace json new s e = Done out -> utf8 out.
Proof.
  intros H1 H2 Hn H. unfold done_replace, pbind in H. destruct (replace json new s e) eqn:E; try discriminate. injection H as <-. exact (replace_utf8 json new s e _ H1 H2 Hn E).
Qed.
Lemma slice_utf8 json s e r c : cut json s -> c < 128 -> ((s <= e)%nat /\ nth_error json e = Some c) \/ ((s < e)%nat /\ nth_error json (pred e) = Some c) ->
  slice json s e = Ok r -> utf8 r.
Proof.
  intros [_ H2] Hc He H. unfold slice in H. destruct (_ && _)%bool; [|discriminate]. injection H as <-.
  set (x := skipn s json) in *. assert (K : nth_error x (e - s) = Some c \/ ((0 < e - s)%nat /\ nth_error x (pred (e - s)) = Some c)).
  { unfold x. destruct He as [[L E]|[L E]]; [left|right; split; [lia|]]; rewrite nth_skipn, <- E; f_equal; lia. }
  clearbody x. destruct K as [K|[L K]].
  - apply (cut_before x (e - s) c H2 K Hc).
  - apply (cut_after x (e - s) c H2 K Hc). lia.
Qed.

(** ** The search stops at such positions *)
Lemma space_low c : space c = true -> c < 128.
Proof. unfold space. rewrite !orb_true_iff, !N.eqb_eq. lia. Qed.
Lemma open_low c : is_open c = true -> c < 128.
Proof. unfold is_open. rewrite !orb_true_iff, !N.eqb_eq. lia. Qed.
Lemma close_low c : is_close c = true -> c < 128.
Proof. unfold is_close. rewrite !orb_true_iff, !N.eqb_eq. lia. Qed.

Section Search.
  Variables (json : bytes) (path : list bytes).
  Definition beside (n : nat) : Prop :=
    (length json <= n)%nat \/ n = O \/ exists c, c < 128 /\ (nth_error json n = Some c \/ (n <> O /\ nth_error json (pred n) = Some c)).
  Definition at_bracket (st : cst) : Prop := brace st = 91 -> (length json <= offset st)%nat \/ exists c, c < 128 /\ nth_error json (offset st) = Some c.
  Definition good (k : nat) (st : cst) : Prop := beside (offset st) /\ ((k < length path)%nat -> at_bracket st).

  Lemma key_beside : forall rest i resume k level found inq s e st k' st', rest = skipn i json -> brace st <> 91 -> beside (offset st) ->
    key_loop json path rest i resume k level found inq s e st = Ok (k', st') -> good (S k') st'.
  Proof.
    induction rest as [|c r IH]; intros i resume k level found inq s e st k' st' Hr Hb Ho H; cbn [key_loop] in H.
    - destruct found; [|discriminate]. injection H as <- <-. split; [exact Ho|]. intros _ E. contradiction.
    - apply skipn_step in Hr. destruct Hr as [Hc Hr].
      assert (Hi : c < 128 -> beside (S i)) by (intro; right; right; exists c; split; [assumption|right; split; [lia|exact Hc]]).
      assert (Stay : forall resume k level found inq s e st, brace st <> 91 -> beside (offset st) ->
        key_loop json path r (S i) resume k level found inq s e st = Ok (k', st') -> good (S k') st') by (intros; eapply IH; eassumption).
      destruct (i <? resume)%nat; [eapply Stay; eassumption|].
      destruct (c =? 34). { destruct found; [eapply Stay; eassumption|]. destruct (negb _); [eapply Stay; eassumption|].
        destruct (qscan json i) as [[]|]; [destruct (negb inq)| |destruct inq]; eapply Stay; eassumption. }
      destruct inq; [eapply Stay; eassumption|].
      destruct ((level =? S k)%nat && (c =? 58))%bool eqn:E.
      { apply andb_true_iff in E. destruct E as [_ E]. apply N.eqb_eq in E. assert (L : c < 128) by lia. destruct (key_match json (cur st) s e).
        - destruct (S k =? length path)%nat eqn:Ek.
          + injection H as <- <-. split; cbn [offset brace]; [auto|]. intros _ X. contradiction.
          + eapply Stay; [| |exact H]; cbn [offset brace]; auto.
        - destruct (jump_loop json r (S i) k level false); try discriminate; eapply Stay; eassumption. }
      destruct (c =? 91) eqn:E91.
      { destruct found; [|eapply Stay; eassumption]. destruct (nth_error path (S k)); [|discriminate]. injection H as <- <-. apply N.eqb_eq in E91. subst c.
        split; cbn [offset brace]; [|intros _ _; right; exists 91; split; [lia|exact Hc]]. right. right. exists 91. split; [lia|]. left. exact Hc. }
      destruct (c =? 123).
      { destruct found; [|eapply Stay; eassumption]. destruct (nth_error path (S k)); [|discriminate]. eapply Stay; [| |exact H]; assumption. }
      destruct (is_close c); [destruct (level <? S k)%nat; [discriminate|]|]; eapply Stay; eassumption.
  Qed.

  Lemma arr0_beside : forall rest i last o, rest = skipn i json -> arr0_loop rest i last = Ok o ->
    match o with Some (j, c) => nth_error json j = Some c /\ is_open c = true | None => True end.
  Proof.
    induction rest as [|c r IH]; intros i last o Hr H; cbn [arr0_loop] in H; [injection H as <-; exact I|].
    apply skipn_step in Hr. destruct Hr as [Hc Hr].
    destruct (space c); [eapply IH; eassumption|]. destruct (is_open c) eqn:E; [injection H as <-; auto|]. destruct last; [injection H as <-; exact I|discriminate].
  Qed.
  Lemma arr_beside : forall rest i last target level inq found cnt o, rest = skipn i json -> arr_loop json rest i last target level inq found cnt = Ok o ->
    match o with ALast off => off <> O /\ nth_error json (pred off) = Some 44 | ABrace j c => nth_error json j = Some c /\ is_open c = true | AEnd => True end.
  Proof.
    induction rest as [|c r IH]; intros i last target level inq found cnt o Hr H; cbn [arr_loop] in H; [destruct found; [injection H as <-; exact I|discriminate]|].
    apply skipn_step in Hr. destruct Hr as [Hc Hr].
    destruct (c =? 34); [eapply IH; eassumption|]. destruct inq; [eapply IH; eassumption|].
    destruct (negb found && (level =? 1)%nat && (c =? 44))%bool eqn:E.
    { apply andb_true_iff in E. destruct E as [_ E]. apply N.eqb_eq in E. subst c. destruct (_ =? target)%Z; [|eapply IH; eassumption].
      destruct (match next_nonspace r with Some d => negb (is_open d) && negb last | None => false end)%bool; [discriminate|].
      destruct last; [injection H as <-; split; [lia|exact Hc]|eapply IH; eassumption]. }
    destruct (is_open c) eqn:Eo; [destruct found; [injection H as <-; auto|eapply IH; eassumption]|].
    destruct (is_close c); [destruct (level <? 2)%nat; [discriminate|]|]; eapply IH; eassumption.
  Qed.
  Lemma arr_not_last : forall rest i target level inq found cnt off, arr_loop json rest i false target level inq found cnt <> Ok (ALast off).
  Proof.
    induction rest as [|c r IH]; intros i target level inq found cnt off H; cbn [arr_loop] in H; [destruct found; discriminate|].
    destruct (c =? 34); [eapply IH; eassumption|]. destruct inq; [eapply IH; eassumption|].
    destruct (negb found && (level =? 1)%nat && (c =? 44))%bool.
    { destruct (_ =? target)%Z; [|eapply IH; eassumption].
      destruct (match next_nonspace r with Some d => negb (is_open d) && negb false | None => false end)%bool; [discriminate|]. eapply IH; eassumption. }
    destruct (is_open c); [destruct found; [discriminate|eapply IH; eassumption]|].
    destruct (is_close c); [destruct (level <? 2)%nat; [discriminate|]|]; eapply IH; eassumption.
  Qed.
  Lemma arr_step_good k st st' : beside (offset st) -> at_bracket st -> brace st = 91 -> arr_step json path k st = Ok st' -> good (S k) st'.
  Proof.
    intros Ho Ha Hb H. unfold arr_step in H. destruct (atoi (cur st)) as [idx|]; [|discriminate]. specialize (Ha Hb).
    assert (Op : forall j c p ks, nth_error json j = Some c -> is_open c = true -> good (S k) (CSt j c p ks)).
    { intros j c p ks E O. split; cbn [offset brace]; [right; right; exists c; split; [apply open_low, O|auto]|]. intros _ _. right. exists c. split; [apply open_low, O|exact E]. }
    destruct (idx =? 0)%Z.
    - destruct (arr0_loop (skipn (S (offset st)) json) (S (offset st)) (S k =? length path)%nat) as [o| |] eqn:E; cbn [bind] in H; try discriminate.
      pose proof (arr0_beside _ _ _ _ eq_refl E) as K. destruct o as [[j c]|].
      + destruct K as [K1 K2]. destruct (S k =? length path)%nat; [injection H as <-; apply Op; assumption|]. destruct (nth_error path (S k)); [|discriminate]. injection H as <-. apply Op; assumption.
      + injection H as <-. split; cbn [offset brace].
        * destruct Ha as [Ha|(c & Hc & Ha)]; [left; lia|]. right. right. exists c. split; [exact Hc|]. right. split; [lia|exact Ha].
        * intros L _. cbn [offset]. replace (S k =? length path)%nat with false in E by (symmetry; apply Nat.eqb_neq; lia).
          destruct (nth_error json (S (offset st))) as [c|] eqn:En; [|left; apply nth_error_None; exact En]. right. exists c. split; [|reflexivity].
          destruct (split_nth _ _ _ En) as (A & C & HJ & HA). rewrite HJ, (skipn_app_len A) in E by exact HA. cbn [arr0_loop] in E.
          destruct (space c) eqn:Ec; [apply space_low, Ec|]. destruct (is_open c); discriminate.
    - destruct (arr_loop json (skipn (offset st) json) (offset st) (S k =? length path)%nat idx 0 false false 0) as [o| |] eqn:E; cbn [bind] in H; try discriminate.
      pose proof (arr_beside _ _ _ _ _ _ _ _ _ eq_refl E) as K. destruct o as [off|j c|].
      + injection H as <-. destruct K as [K1 K2]. split; cbn [offset brace]; [right; right; exists 44; split; [lia|right; auto]|].
        intros L. exfalso. clear -E L. replace (S k =? length path)%nat with false in E by (symmetry; apply Nat.eqb_neq; lia). revert E. apply arr_not_last.
      + destruct (nth_error path (S k)); [|discriminate]. injection H as <-. apply Op; apply K.
      + injection H as <-. split; [exact Ho|]. intros _. intros _. exact Ha.
  Qed.

  Lemma outer_good : forall todo k resume st st', (k + length todo = length path)%nat -> beside (offset st) -> ((Nat.max k resume < length path)%nat -> at_bracket st) ->
    outer json path todo k resume st = Ok st' -> beside (offset st').
  Proof.
    induction todo as [|x todo IH]; intros k resume st st' Hn Ho Ha H; cbn [outer] in H; [injection H as <-; exact Ho|]. cbn [length] in Hn.
    destruct (k <? resume)%nat eqn:Er; [apply Nat.ltb_lt in Er; eapply IH; [| | |exact H]; [lia|exact Ho|]; intro L; apply Ha; lia|]. apply Nat.ltb_ge in Er.
    destruct (brace st =? 91) eqn:Eb.
    - apply N.eqb_eq in Eb. destruct (arr_step json path k st) as [st1| |] eqn:Es; cbn [bind] in H; try discriminate.
      destruct (arr_step_good k st st1 Ho ltac:(apply Ha; lia) Eb Es) as [H1 H2]. eapply IH; [| | |exact H]; [lia|exact H1|]. intro L. apply H2. lia.
    - apply N.eqb_neq in Eb. destruct (key_loop json path (skipn (offset st) json) (offset st) 0 k k false false 0 0 st) as [[k' st1]| |] eqn:Es; cbn [bind] in H; try discriminate.
      destruct (key_beside _ _ _ _ _ _ _ _ _ _ _ _ eq_refl Eb Ho Es) as [H1 H2]. eapply IH; [| | |exact H]; [lia|exact H1|]. intro L. apply H2. lia.
  Qed.

  Lemma skip_beside : forall rest i n, rest = skipn i json -> beside i -> skip_space rest i = Ok n -> n = O \/ exists c, c < 128 /\ (nth_error json n = Some c \/ (n <> O /\ nth_error json (pred n) = Some c)).
  Proof.
    induction rest as [|c r IH]; intros i n Hr Hb H; cbn [skip_space] in H; [discriminate|]. apply skipn_step in Hr. destruct Hr as [Hc Hr].
    destruct (space c) eqn:E.
    - apply (IH (S i) n Hr); [|exact H]. right. right. exists c. split; [apply space_low, E|]. right. split; [lia|exact Hc].
    - injection H as <-. destruct Hb as [Hb|Hb]; [|exact Hb]. apply nth_error_ext in Hc. lia.
  Qed.
End Search.

Lemma shuts_last : forall l n inq esc, shuts l n inq esc = true -> exists l' c, l = l' ++ [c] /\ In c [93; 125].
Proof.
  induction l as [|c r IH]; intros n inq esc H; cbn [shuts] in H; [discriminate|].
  assert (K : forall n inq esc, shuts r n inq esc = true -> exists l' d, c :: r = l' ++ [d] /\ In d [93; 125]).
  { intros n0 i0 e0 H0. destruct (IH _ _ _ H0) as (l' & d & -> & Hd). exists (c :: l'), d. auto. }
  destruct (c =? 92); [eapply K; eassumption|]. destruct (c =? 34); [eapply K; eassumption|]. destruct inq; [eapply K; eassumption|].
  destruct ((c =? 91) || (c =? 123))%bool; [eapply K; eassumption|]. destruct ((c =? 93) || (c =? 125))%bool eqn:E; [|eapply K; eassumption].
  destruct n as [|[|n]]; try (eapply K; eassumption). destruct r; [|discriminate]. exists [], c. split; [reflexivity|].
  apply orb_true_iff in E. rewrite !N.eqb_eq in E. cbn. intuition.
Qed.
Definition ends_low (json : bytes) (s e : nat) : Prop :=
  exists c, c < 128 /\ (((s <= e)%nat /\ nth_error json e = Some c) \/ ((s < e)%nat /\ nth_error json (pred e) = Some c)).
Lemma core_cut json path ks s e : utf8 json -> core json false path = Ok (ks, s, e) ->
  cut json s /\ ends_low json s e /\ match ks with Some (S n) => nth_error json n = Some 34 | _ => True end.
Proof.
  intros Hu H. pose proof (core_shape _ _ _ _ _ H) as (_ & (A & r & C & HJ & HA & He & Hv) & Hk).
  unfold core in H. destruct (length json <? 2)%nat; [discriminate|]. destruct path as [|p0 path]; [discriminate|].
  destruct (skip_space json 0) as [off| |] eqn:E0; cbn [bind] in H; try discriminate.
  destruct (at_ json off) as [br| |] eqn:Ebr; cbn [bind] in H; try discriminate.
  destruct (outer json (p0 :: path) (p0 :: path) 0 0 (CSt off br p0 None)) as [st| |] eqn:Eo; cbn [bind] in H; try discriminate.
  destruct (offset st =? 0)%nat; [discriminate|].
  destruct (skip_space (skipn (offset st) json) (offset st)) as [off'| |] eqn:Es; cbn [bind] in H; try discriminate.
  assert (Hnb : nth_error json off = Some br) by (unfold at_ in Ebr; destruct (nth_error json off); [congruence|discriminate]).
  assert (Hb : beside json (offset st)).
  { apply (outer_good json (p0 :: path) (p0 :: path) 0 0 (CSt off br p0 None) st); [reflexivity| | |exact Eo]; cbn [offset].
    - pose proof (skip_beside json json 0 off eq_refl ltac:(right; left; reflexivity) E0) as K. right. exact K.
    - intros _. unfold at_bracket. cbn [offset brace]. intros ->. right. exists 91. split; [lia|exact Hnb]. }
  pose proof (skip_beside json _ _ _ eq_refl Hb Es) as Hs.
  assert (Hc : cut json off').
  { destruct Hs as [->|(c & Hc & [Hn|[Hn0 Hn]])]; [apply cut_0, Hu|eapply cut_before; eassumption|eapply cut_after; eassumption]. }
  split; [|split].
  - unfold value_end in H. destruct (at_ json off') as [c| |] eqn:Ec; cbn [bind] in H; try discriminate.
    assert (Hn : nth_error json off' = Some c) by (unfold at_ in Ec; destruct (nth_error json off'); [congruence|discriminate]).
    destruct (is_open c); [destruct (close_loop json (skipn off' json) off' 0 false); [|discriminate]; injection H as _ <- _; exact Hc|].
    destruct (c =? 34) eqn:E34; [destruct (quote_loop (skipn (S off') json) (S off')); [|discriminate]; injection H as _ <- _; apply N.eqb_eq in E34; subst c; apply (cut_at json off' 34 Hu Hn); lia|].
    destruct (token_loop (skipn off' json) off') as [e'|]; [|discriminate]. destruct (e' =? off')%nat; [discriminate|]. injection H as _ <- _. exact Hc.
  - assert (Cn : forall c C', C = c :: C' -> c < 128 -> ends_low json s e).
    { intros c C' -> L. exists c. split; [exact L|]. left. split; [lia|]. rewrite HJ, app_assoc, nth_error_app2 by (rewrite app_length; lia).
      replace (e - length (A ++ r))%nat with O by (rewrite app_length; lia). reflexivity. }
    destruct Hv as [Hv|[(_ & _ & C' & HC)|(_ & _ & _ & c & C' & HC & Hd)]].
    + destruct r as [|o l]; [contradiction|]. destruct Hv as [_ Hv]. destruct (shuts_last _ _ _ _ Hv) as (l' & c & -> & Hin).
      exists c. split; [cbn in Hin; lia|]. right. cbn [length] in He. rewrite app_length in He. cbn [length] in He. split; [lia|].
      rewrite HJ. replace (A ++ (o :: l' ++ [c]) ++ C) with ((A ++ o :: l') ++ c :: C) by (rewrite <- !app_assoc; cbn; rewrite <- !app_assoc; reflexivity).
      rewrite nth_error_app2 by (rewrite app_length; cbn [length]; lia). replace (pred e - length (A ++ o :: l'))%nat with O by (rewrite app_length; cbn [length]; lia). reflexivity.
    + apply (Cn 34 C' HC). lia.
    + apply (Cn c C' HC). unfold delimiter in Hd. change (is_ws c) with (space c) in Hd. rewrite !orb_true_iff in Hd. destruct Hd as [[[Hd|Hd]|Hd]|Hd]; [apply space_low, Hd|apply N.eqb_eq in Hd; lia..].
  - destruct ks as [[|n]|]; try exact I. destruct Hk as ([Hk|(K & l & HK & HL & _)] & _); [discriminate|]. injection HL as ->.
    rewrite HK, nth_error_app2, Nat.sub_diag by lia. reflexivity.
Qed.

(** ** The functions *)
Lemma ends_cut json s e : utf8 json -> ends_low json s e -> cut json e.
Proof. intros Hu (c & Hc & [[_ H]|[L H]]); [eapply cut_before; eassumption|eapply cut_after; try eassumption; lia]. Qed.
Theorem get_utf8 json path r : utf8 json -> Get json path = Ok r -> utf8 r.
Proof.
  intros Hu H. unfold Get in H. destruct path as [|p0 path]; [injection H as <-; exact Hu|].
  destruct (core json false (p0 :: path)) as [[[ks s] e]| |] eqn:E; cbn [bind] in H; try discriminate.
  destruct (core_cut _ _ _ _ _ Hu E) as (H1 & (c & Hc & H2) & _). exact (slice_utf8 _ _ _ _ c H1 Hc H2 H).
Qed.
Lemma at_nth json n c : at_ json n = Ok c -> nth_error json n = Some c.
Proof. unfold at_. destruct (nth_error json n); congruence. Qed.
Lemma pred_nth json n c : at_pred json n = Ok c -> n <> O /\ nth_error json (pred n) = Some c.
Proof. unfold at_pred. destruct n; [discriminate|]. intro H. apply at_nth in H. auto. Qed.
Lemma span_utf8 json new s e out : utf8 json -> utf8 new -> cut json s -> cut json e -> set_span json new s e = Done out -> utf8 out.
Proof.
  intros Hu Hn Hs He H. unfold set_span, pbind in H. destruct (at_pred json s) as [c| |] eqn:E1; try discriminate. apply pred_nth in E1. destruct E1 as [_ E1].
  assert (K : done_replace json new s e = Done out -> utf8 out) by (apply done_utf8; assumption).
  destruct (c =? 34) eqn:Ec; [|auto]. destruct (at_ json e) as [d| |] eqn:E2; try discriminate. apply at_nth in E2. destruct (d =? 34) eqn:Ed; [|auto].
  apply N.eqb_eq in Ec, Ed. subst. apply done_utf8 in H; [exact H| | |exact Hn]; [eapply cut_before|eapply cut_at]; try eassumption; lia.
Qed.
Theorem set_utf8 json new path out : utf8 json -> utf8 new -> Set_ json new path = Done out -> utf8 out.
Proof.
  intros Hu Hn H. unfold Set_ in H. destruct path as [|p0 path]; [discriminate|]. unfold ubind in H.
  destruct (core json false (p0 :: path)) as [[[ks s] e]| |] eqn:E; try discriminate. destruct (core_cut _ _ _ _ _ Hu E) as (H1 & H2 & _).
  exact (span_utf8 _ _ _ _ _ Hu Hn H1 (ends_cut _ _ _ Hu H2) H).
Qed.
Lemma setkey_quote json : forall n rest i bound j, (length rest <= n)%nat -> rest = skipn i json -> setkey_loop rest i bound = Ok (Some j) -> nth_error json j = Some 34.
Proof.
  induction n as [|n IH]; intros rest i bound j Hn Hr H; destruct rest as [|c r]; cbn [setkey_loop length] in *; try lia; try (destruct (i <? bound)%nat; discriminate).
  destruct (i <? bound)%nat; [|discriminate]. apply skipn_step in Hr. destruct Hr as [Hc Hr].
  destruct (c =? 92). { destruct r as [|d r]; [destruct (S (S i) <? bound)%nat; discriminate|]. apply skipn_step in Hr. destruct Hr as [_ Hr]. apply IH in H; [exact H|cbn in Hn; lia|exact Hr]. }
  destruct (c =? 34) eqn:E; [injection H as <-; apply N.eqb_eq in E; subst; exact Hc|]. apply IH in H; [exact H|lia|exact Hr].
Qed.
Lemma key_cut json n : utf8 json -> match n with S m => nth_error json m = Some 34 | O => True end -> cut json n.
Proof. intros Hu H. destruct n; [apply cut_0, Hu|]. apply (cut_at json n 34 Hu H). lia. Qed.
Theorem setkey_utf8 json newKey path out : utf8 json -> utf8 newKey -> SetKey json newKey path = Done out -> utf8 out.
Proof.
  intros Hu Hn H. unfold SetKey in H. destruct newKey as [|c0 newKey]; [discriminate|]. destruct path as [|p0 path]; [discriminate|].
  destruct (core json false (removelast (p0 :: path) ++ [c0 :: newKey])); try discriminate. destruct (err_equal _ _); [|discriminate]. unfold ubind, pbind in H.
  destruct (core json false (p0 :: path)) as [[[ks s] e']| |] eqn:E; try discriminate. destruct ks as [ks|]; [|discriminate].
  destruct (core_cut _ _ _ _ _ Hu E) as (_ & _ & Hk). destruct (setkey_loop (skipn ks json) ks s) as [[i|]| |] eqn:El; try discriminate.
  apply (setkey_quote json _ _ _ _ _ (le_n _) eq_refl) in El. apply done_utf8 in H; [exact H| | |exact Hn]; [apply key_cut; assumption|]. eapply cut_before; [exact Hu|exact El|lia].
Qed.

Lemma back_space json : forall i n, back_edge json i = Ok n -> (n <= i)%nat /\ (n = i \/ exists c, space c = true /\ nth_error json i = Some c).
Proof.
  intros [|i] n H; cbn [back_edge] in H; [injection H as <-; auto|]. destruct (at_ json (S i)) as [c| |] eqn:E; cbn [bind] in H; try discriminate. apply at_nth in E.
  destruct (space c) eqn:Ec; [|injection H as <-; auto]. split; [|right; eauto]. clear -H. revert n H. induction i as [|i IH]; intros n H; cbn [back_edge] in H; [injection H as <-; lia|].
  destruct (at_ json (S i)); cbn [bind] in H; try discriminate. destruct (space a); [apply IH in H; lia|injection H as <-; lia].
Qed.
Theorem delete_utf8 json path out : utf8 json -> Delete json path = Done out -> utf8 out.
Proof.
  intros Hu H. unfold Delete in H. destruct path as [|p0 path]; [discriminate|]. unfold ubind, pbind in H.
  destruct (core json false (p0 :: path)) as [[[ks s] e]| |] eqn:E; try discriminate. destruct (core_cut _ _ _ _ _ Hu E) as (H1 & H2 & Hk). apply (ends_cut _ _ _ Hu) in H2.
  assert (Hs : match ks with Some O => False | Some n => cut json (pred n) | None => cut json s end \/ ks = Some O).
  { destruct ks as [[|n]|]; auto. left. eapply cut_before; [exact Hu|exact Hk|lia]. }
  destruct Hs as [Hs| ->]; [|discriminate].
  assert (Hs' : cut json (match ks with None => s | Some k => pred k end)) by (destruct ks as [[|n]|]; [contradiction|exact Hs|exact Hs]).
  set (start := match ks with None => s | Some k => pred k end) in *. clearbody start.
  assert (H' : match at_pred json start with
    | Ok c => match at_ json e with
      | Ok d => match back_edge json (pred (if c =? 34 then pred start else start)) with
        | Ok sedge => match at_ json sedge with
          | Ok sc => match at_ json (fwd_edge (skipn (if d =? 34 then S e else e) json) (if d =? 34 then S e else e)) with
            | Ok ec => if (is_open sc && (sc + 2 =? ec))%bool then done_replace json [] (if c =? 34 then pred start else start) (if d =? 34 then S e else e)
                       else if ec =? 44 then done_replace json [] (if c =? 34 then pred start else start) (S (fwd_edge (skipn (if d =? 34 then S e else e) json) (if d =? 34 then S e else e)))
                       else if sc =? 44 then done_replace json [] sedge (if d =? 34 then S e else e) else Fail (Some json) (EBadJSON (if c =? 34 then pred start else start))
            | _ => UPanic end
          | _ => UPanic end
        | _ => UPanic end
      | _ => UPanic end
    | _ => UPanic end = Done out) by (destruct ks as [[|n]|]; [discriminate|exact H|exact H]).
  clear H. rename H' into H. destruct (at_pred json start) as [c| |] eqn:Ec; try discriminate. apply pred_nth in Ec. destruct Ec as [_ Ec].
  destruct (at_ json e) as [d| |] eqn:Ed; try discriminate. apply at_nth in Ed.
  assert (Ks : cut json (if c =? 34 then pred start else start)) by (destruct (c =? 34) eqn:E34; [apply N.eqb_eq in E34; subst; eapply cut_before; [exact Hu|exact Ec|lia]|exact Hs']).
  assert (Ke : cut json (if d =? 34 then S e else e)) by (destruct (d =? 34) eqn:E34; [apply N.eqb_eq in E34; subst; eapply cut_at; [exact Hu|exact Ed|lia]|exact H2]).
  set (st := if c =? 34 then pred start else start) in *. set (en := if d =? 34 then S e else e) in *. clearbody st en.
  destruct (back_edge json (pred st)) as [sedge| |] eqn:Eb; try discriminate. destruct (at_ json sedge) as [sc| |] eqn:Esc; try discriminate. apply at_nth in Esc.
  destruct (at_ json (fwd_edge (skipn en json) en)) as [ec| |] eqn:Eec; try discriminate. apply at_nth in Eec.
  destruct (is_open sc && (sc + 2 =? ec))%bool; [apply done_utf8 in H; auto using utf8_nil|].
  destruct (ec =? 44) eqn:E44. { apply N.eqb_eq in E44. subst. apply done_utf8 in H; auto using utf8_nil. eapply cut_at; [exact Hu|exact Eec|lia]. }
  destruct (sc =? 44) eqn:S44; [|discriminate]. apply N.eqb_eq in S44. subst. apply done_utf8 in H; auto using utf8_nil. eapply cut_before; [exact Hu|exact Esc|lia].
Qed.

Lemma brace_cut json s e o c : utf8 json -> c < 128 -> braces_at json s e o c = Ok true -> cut json (pred e).
Proof.
  intros Hu Hc H. unfold braces_at in H. destruct (at_ json s) as [x| |]; cbn [bind] in H; try discriminate. destruct (x =? o); [|discriminate].
  destruct (at_pred json e) as [d| |] eqn:E; cbn [bind] in H; try discriminate. injection H as H. apply N.eqb_eq in H. subst d. apply pred_nth in E. destruct E as [_ E]. eapply cut_before; eassumption.
Qed.
Theorem add_utf8 json value path out : utf8 json -> utf8 value -> Add_ json value path = Done out -> utf8 out.
Proof.
  intros Hu Hv H. unfold Add_, ubind, pbind in H. destruct (length json <? 2)%nat; [discriminate|]. destruct (target_span json 91 93 EArrayExpected path) as [[s e]| |]; try discriminate.
  destruct (braces_at json s e 91 93) as [[]| |] eqn:E; try discriminate. apply brace_cut in E; [|exact Hu|lia].
  destruct (blank_between json s e); apply done_utf8 in H; auto. apply utf8_cons; [lia|exact Hv].
Qed.
Lemma pair_utf8 key value : utf8 key -> utf8 value -> utf8 ((34 :: key ++ [34; 58]) ++ value).
Proof. intros. apply utf8_app; [apply utf8_cons; [lia|apply utf8_app; [assumption|apply utf8_all_low; repeat constructor; lia]]|assumption]. Qed.
Lemma value_utf8 value : (forall v, value = Some v -> utf8 v) -> utf8 (match value with None => b "null" | Some v => v end).
Proof. destruct value; intro H; [auto|]. apply utf8_all_low. repeat (apply Forall_cons; [vm_compute; reflexivity|]). apply Forall_nil. Qed.
Theorem addkv_utf8 json key value path out : utf8 json -> utf8 key -> (forall v, value = Some v -> utf8 v) -> AddKeyValue json key value path = Done out -> utf8 out.
Proof.
  intros Hu Hk Hv H. unfold AddKeyValue, ubind, pbind in H. apply value_utf8 in Hv. set (v := match value with None => b "null" | Some v => v end) in *. clearbody v.
  destruct (length json <? 2)%nat; [discriminate|]. destruct (target_span json 123 125 EObjectExpected path) as [[s e]| |]; try discriminate.
  destruct (braces_at json s e 123 125) as [[]| |] eqn:E; try discriminate. apply brace_cut in E; [|exact Hu|lia].
  destruct (blank_between json s e); [apply done_utf8 in H; auto using pair_utf8|].
  destruct (core json false (path ++ [key])); try discriminate. destruct (err_equal _ _); [|discriminate].
  apply done_utf8 in H; auto. apply (utf8_cons 44); [lia|apply pair_utf8; assumption].
Qed.
Theorem store_utf8 json key value path out : utf8 json -> utf8 key -> (forall v, value = Some v -> utf8 v) -> Store json key value path = Done out -> utf8 out.
Proof.
  intros Hu Hk Hv H. unfold Store in H. destruct (core json false (path ++ [key])) as [[[ks s] e]|er|] eqn:E; try discriminate.
  - destruct (core_cut _ _ _ _ _ Hu E) as (H1 & H2 & _). refine (span_utf8 _ _ _ _ _ Hu _ H1 (ends_cut _ _ _ Hu H2) H). destruct value; [auto|apply utf8_nil].
  - destruct (err_equal _ _); [|discriminate]. exact (addkv_utf8 _ _ _ _ _ Hu Hk Hv H).
Qed.
Theorem insert_utf8 json index value path out : utf8 json -> utf8 value -> Insert json index value path = Done out -> utf8 out.
Proof.
  intros Hu Hv H. unfold Insert, ubind, pbind in H. destruct (target_span json 91 93 EArrayExpected path) as [[s0 e0]| |]; try discriminate.
  destruct (braces_at json s0 e0 91 93) as [[]| |]; try discriminate.
  destruct (core json false (path ++ [itoa index])) as [[[ks s] e]| |] eqn:E; try discriminate. destruct (core_cut _ _ _ _ _ Hu E) as (H1 & H2 & _). apply (ends_cut _ _ _ Hu) in H2.
  destruct (at_pred json s) as [c| |] eqn:Ec; try discriminate. apply pred_nth in Ec. destruct Ec as [_ Ec].
  destruct (at_ json e) as [d| |] eqn:Ed; try discriminate. apply at_nth in Ed.
  assert (Ks : cut json (if c =? 34 then pred s else s)) by (destruct (c =? 34) eqn:E34; [apply N.eqb_eq in E34; subst; eapply cut_before; [exact Hu|exact Ec|lia]|exact H1]).
  set (st := if c =? 34 then pred s else s) in *. set (en := if d =? 34 then S e else e) in *. clearbody st en.
  destruct (back_edge json (pred st)) as [sedge| |] eqn:Eb; try discriminate. destruct (at_ json sedge) as [sc| |] eqn:Esc; try discriminate. apply at_nth in Esc.
  destruct (at_ json (fwd_edge (skipn en json) en)) as [ec| |] eqn:Eec; try discriminate. apply at_nth in Eec.
  assert (Hv1 : utf8 (value ++ [44])) by (apply utf8_app; [exact Hv|apply utf8_low; lia]).
  destruct (is_open sc && (sc + 2 =? ec))%bool; [apply done_utf8 in H; auto|]. destruct (ec =? 44); [apply done_utf8 in H; auto|].
  destruct (sc =? 44) eqn:S44; [|discriminate]. apply N.eqb_eq in S44. subst. destruct st as [|p]; [discriminate|]. cbn [pred] in Eb.
  assert (Kp : cut json p). { destruct (back_space _ _ _ Eb) as [_ [->|(x & Hx & En)]]; [apply (cut_before json p 44 Hu Esc); lia|apply (cut_before json p x Hu En), space_low, Hx]. }
  apply done_utf8 in H; auto. apply utf8_cons; [lia|exact Hv].
Qed.
