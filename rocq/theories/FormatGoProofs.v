(** Flatten and Indent statement by statement (FormatGo.v) compute what the models in Format.v compute. *)
From Coq Require Import String.
From Verif Require Import GoStd GoLang Core Format.
From Verif Require CoreGo FormatGo.
From Verif Require Import CoreGoProofs.

Local Open Scope Z_scope.
Module F := FormatGo.

Lemma byte_at {A} (x : list A) i c r : skipn i x = c :: r -> nth_error x i = Some c /\ skipn (S i) x = r /\ (i < length x)%nat.
Proof.
  intro H. assert (Hlt : (i < length x)%nat) by (apply (f_equal (@length A)) in H; rewrite skipn_length in H; cbn in H; lia).
  assert (E : x = firstn i x ++ c :: r) by (rewrite <- H; symmetry; apply firstn_skipn).
  assert (L : length (firstn i x) = i) by (rewrite firstn_length; lia).
  split; [|split; [|exact Hlt]].
  - rewrite E, nth_error_app2 by lia. rewrite L, Nat.sub_diag. reflexivity.
  - rewrite E, skipn_app, skipn_all2 by lia. rewrite L. replace (S i - i)%nat with 1%nat by lia. reflexivity.
Qed.
Lemma byte_end {A} (x : list A) i : skipn i x = [] -> (length x <= i)%nat.
Proof. intro H. apply (f_equal (@length A)) in H. rewrite skipn_length in H. cbn in H. lia. Qed.

Section Format.
  Variable fuel : nat.

  Lemma tabs_loop {R} : forall m i fu, (m < fu)%nat ->
    leave (for_ fu (fun s : bytes * Z => Ok (snd s <? zlen (fst s))) (fun s => (fst s, snd s + 1)) (set_ (fun s => (zput (fst s) (Z.to_N (snd s)) 9%N, snd s)))
      (repeat 9%N i ++ repeat 0%N m, Z.of_nat i)) = Nrm (repeat 9%N (i + m)) :> flow _ R.
  Proof.
    induction m as [|m IH]; intros i fu Hfu; (destruct fu as [|fu]; [lia|]); cbn [for_ fst snd]; unfold zlen at 1; rewrite app_length, !repeat_length, zltb.
    - destruct (Nat.ltb_spec i (i + 0)); [lia|]. cbn [leave fst repeat]. rewrite app_nil_r, Nat.add_0_r. reflexivity.
    - destruct (Nat.ltb_spec i (i + S m)); [|lia]. specialize (IH (S i) fu ltac:(lia)). hide fu. unfold set_. cbn [fst snd]. rewrite zsucc. replace (i + S m)%nat with (S i + m)%nat by lia. rewrite <- IH. f_equal. f_equal. f_equal.
      unfold zput. replace (N.to_nat (Z.to_N (Z.of_nat i))) with i by lia.
      rewrite firstn_app, firstn_all2, repeat_length, Nat.sub_diag by (rewrite repeat_length; lia). cbn [firstn]. rewrite app_nil_r.
      rewrite skipn_app, skipn_all2, repeat_length by (rewrite repeat_length; lia). replace (S i - i)%nat with 1%nat by lia. cbn [repeat skipn app].
      clear. induction i as [|i IH]; [reflexivity|]. cbn [repeat app]. rewrite IH. reflexivity.
  Qed.
  Theorem createTabs_go_spec n : n < Z.of_nat fuel -> F.createTabs_go fuel n = match createTabs n with Ok t => Ret t | _ => Pan end.
  Proof.
    intro Hn. unfold F.createTabs_go, createTabs, func. unfold then_ at 1, read. destruct (Z.ltb_spec n 0) as [H|H]; [reflexivity|]. unfold set_ at 1. unfold then_, var.
    pose proof (tabs_loop (R := bytes) (Z.to_nat n) 0 fuel ltac:(lia)) as K. cbn [repeat app Nat.add] in K. change (Z.of_nat 0) with 0 in K. rewrite K. reflexivity.
  Qed.

  Section Text.
    Variable json : bytes.
    Definition told (r : flow F.fm bytes) : flow unit bytes := match r with Nrm s => Ret (F.f_new s) | Ret r => Ret r | Out => Out | _ => Pan end.

    Ltac fnorm := unfold F.add, F.fset, F.f_to_new, F.f_to_inQuote, F.f_to_level, then_, if_, read, set_, pass, continue_;
      cbn [fst snd F.f_new F.f_inQuote F.f_level negb].
    Lemma flatten_go : forall fu rest i inq level acc, skipn i json = rest -> (length rest < fu)%nat ->
      told (leave (for_ fu (fun s => Ok (snd s <? zlen json)) (fun s => (fst s, snd s + 1)) (F.flatten_body json) (F.Fm acc inq level, Z.of_nat i))) = Ret (acc ++ flatten rest inq).
    Proof.
      induction fu as [|fu IH]; intros rest i inq level acc Hi Hfu; [lia|]. cbn [for_ snd]. unfold zlen at 1. rewrite zltb. destruct rest as [|c r].
      - apply byte_end in Hi. destruct (Nat.ltb_spec i (length json)); [lia|]. cbn [leave told fst F.f_new flatten]. rewrite app_nil_r. reflexivity.
      - destruct (byte_at _ _ _ _ Hi) as (Hz & Hs & Hlt). rewrite (proj2 (Nat.ltb_lt _ _) Hlt). cbn [length] in Hfu.
        assert (IH1 := fun inq level acc => IH r (S i) inq level acc Hs ltac:(lia)).
        unfold F.flatten_body at 1. unfold read at 1. cbn [snd]. rewrite zat_nth, Hz. cbn [flatten]. destruct (c =? 92)%N.
        + fnorm. rewrite zat_succ.
  replace (Z.of_nat i + 1 + 1) with (Z.of_nat (S (S i))) by lia. rewrite zsucc. unfold zlen at 1. rewrite zltb. destruct r as [|d r].
          * apply byte_end in Hs. destruct (Nat.ltb_spec (S i) (length json)); [lia|]. fnorm. replace (Z.of_nat i + 1 + 1) with (Z.of_nat (S (S i))) by lia.
            etransitivity; [apply (IH [] (S (S i))); [apply skipn_all2; lia|cbn; lia]|]. cbn [flatten]. rewrite app_nil_r. reflexivity.
          * destruct (byte_at _ _ _ _ Hs) as (Hz' & Hs' & Hlt'). rewrite (proj2 (Nat.ltb_lt _ _) Hlt'), Hz'. fnorm. replace (Z.of_nat i + 1 + 1) with (Z.of_nat (S (S i))) by lia.
            etransitivity; [apply (IH r (S (S i))); [exact Hs'|cbn in Hfu; lia]|]. rewrite <- !app_assoc. reflexivity.
        + destruct (c =? 34)%N; [fnorm; rewrite zsucc; etransitivity; [apply IH1|rewrite <- app_assoc; reflexivity]|].
          destruct inq; [fnorm; rewrite zsucc; etransitivity; [apply IH1|rewrite <- app_assoc; reflexivity]|].
          fnorm. destruct (Core.space c); fnorm; rewrite zsucc; (etransitivity; [apply IH1|]); [reflexivity|rewrite <- app_assoc; reflexivity].
    Qed.
  End Text.
  Theorem Flatten_go_spec json : (length json < fuel)%nat -> F.Flatten_go fuel json = Ret (Flatten json).
  Proof.
    intro H. unfold F.Flatten_go, func, then_, var. pose proof (flatten_go json fuel json 0 false 0 [] eq_refl H) as K. change (Z.of_nat 0) with 0 in K. cbn [app] in K.
    destruct (leave _) as [s|s|s|s|r| |]; cbn [told] in K; try discriminate K; exact K.
  Qed.
  Lemma flatten_len : forall n json inq, (length json <= n)%nat -> (length (flatten json inq) <= length json)%nat.
  Proof.
    induction n as [|n IH]; intros [|c r] inq H; cbn [flatten]; try (cbn; lia); cbn [length] in H; [lia|].
    destruct (c =? 92)%N; [destruct r as [|d r]; [cbn; lia|cbn [length] in *; specialize (IH r inq ltac:(lia)); lia]|].
    destruct (c =? 34)%N; [cbn [length]; specialize (IH r (negb inq) ltac:(lia)); lia|]. destruct inq; [cbn [length]; specialize (IH r true ltac:(lia)); lia|].
    destruct (space c); cbn [length]; specialize (IH r false ltac:(lia)); lia.
  Qed.

  Section Indent.
    Variable json : bytes.
    Hypothesis Hjson : (length json < fuel)%nat.
    Ltac fnorm := unfold F.add, F.fset, F.f_to_new, F.f_to_inQuote, F.f_to_level, then_, if_, read, set_, pass, continue_;
      cbn [fst snd F.f_new F.f_inQuote F.f_level negb N.eqb Pos.eqb].
    Lemma tabs_spec {R} acc inq level i : level < Z.of_nat fuel ->
      F.tabs fuel (F.Fm acc inq level, i) = match createTabs level with Ok t => Nrm (F.Fm (acc ++ t) inq level, i) | _ => Pan end :> flow _ R.
    Proof. intro H. unfold F.tabs, call. cbn [fst F.f_level]. rewrite createTabs_go_spec by exact H. destruct (createTabs level); reflexivity. Qed.
    Lemma tabs_not_err n e : createTabs n <> Err e.
    Proof. unfold createTabs. destruct (n <? 0); discriminate. Qed.
    Definition prefixed (acc : bytes) (r : res bytes) : flow unit bytes := match r with Ok o => Ret (acc ++ o) | _ => Pan end.
    Lemma prefixed_emit acc x r : prefixed acc (emit x r) = prefixed (acc ++ x) r.
    Proof. destruct r; cbn [emit bind prefixed]; [rewrite app_assoc|..]; reflexivity. Qed.
    Lemma indent_go : forall rest i fu level inq acc, skipn i json = rest -> (length rest < fu)%nat -> level <= Z.of_nat i ->
      told (leave (for_ fu (fun s => Ok (snd s <? zlen json)) (fun s => (fst s, snd s + 1)) (F.indent_body fuel json) (F.Fm acc inq level, Z.of_nat i))) =
      prefixed acc (indent_loop rest (match i with O => None | S j => nth_error json j end) level inq).
    Proof.
      induction rest as [|c r IH]; intros i fu level inq acc Hi Hfu Hlv; (destruct fu as [|fu]; [lia|]); cbn [for_ snd]; unfold zlen at 1; rewrite zltb.
      - apply byte_end in Hi. destruct (Nat.ltb_spec i (length json)); [lia|]. cbn [leave told fst F.f_new indent_loop prefixed]. rewrite app_nil_r. reflexivity.
      - destruct (byte_at _ _ _ _ Hi) as (Hz & Hs & Hlt). rewrite (proj2 (Nat.ltb_lt _ _) Hlt). cbn [length] in Hfu.
        assert (IH1 := fun level inq acc H => IH (S i) fu level inq acc Hs ltac:(lia) H). clear IH. cbn [nth_error] in IH1. rewrite Hz in IH1.
        hide fu. unfold F.indent_body. unfold read at 1. cbn [snd]. rewrite zat_nth, Hz. cbn [indent_loop]. unfold is_open, is_close.
        destruct (N.eqb_spec c 34) as [->|H34].
        { fnorm. destruct i as [|j].
          - reflexivity.
          - replace (Z.of_nat (S j) - 1) with (Z.of_nat j) by lia. rewrite zat_nth. destruct (nth_error json j) as [d|] eqn:Ed; [|apply nth_error_None in Ed; lia].
            rewrite prefixed_emit. destruct (d =? 92)%N; fnorm; rewrite zsucc; apply IH1; lia. }
        destruct inq; [fnorm; rewrite zsucc, prefixed_emit; apply IH1; lia|].
        unfold then_ at 1, if_ at 1. unfold pass at 1. unfold if_ at 1. cbn [fst F.f_inQuote]. unfold if_ at 1. destruct (space c); cbn [negb]; [fnorm; rewrite zsucc; apply IH1; lia|].
        destruct (N.eqb_spec c 91) as [->|H91]; [|destruct (N.eqb_spec c 93) as [->|H93]; [|destruct (N.eqb_spec c 123) as [->|H123]; [|destruct (N.eqb_spec c 125) as [->|H125]; [|destruct (N.eqb_spec c 44) as [->|H44]; [|destruct (N.eqb_spec c 58) as [->|H58]]]]]]; cbn [orb].
        + fnorm. rewrite tabs_spec by lia. destruct (createTabs (level + 1)) as [t|e|] eqn:E; cbn [bind]; [|exfalso; eapply tabs_not_err; exact E|reflexivity].
          fnorm. rewrite zsucc, prefixed_emit, <- !app_assoc. apply IH1. lia.
        + fnorm. rewrite tabs_spec by lia. destruct (createTabs (level - 1)) as [t|e|] eqn:E; cbn [bind]; [|exfalso; eapply tabs_not_err; exact E|reflexivity].
          fnorm. rewrite zsucc, prefixed_emit, <- !app_assoc. apply IH1. lia.
        + fnorm. rewrite tabs_spec by lia. destruct (createTabs (level + 1)) as [t|e|] eqn:E; cbn [bind]; [|exfalso; eapply tabs_not_err; exact E|reflexivity].
          fnorm. rewrite zsucc, prefixed_emit, <- !app_assoc. apply IH1. lia.
        + fnorm. rewrite tabs_spec by lia. destruct (createTabs (level - 1)) as [t|e|] eqn:E; cbn [bind]; [|exfalso; eapply tabs_not_err; exact E|reflexivity].
          fnorm. rewrite zsucc, prefixed_emit, <- !app_assoc. apply IH1. lia.
        + fnorm. rewrite tabs_spec by lia. destruct (createTabs level) as [t|e|] eqn:E; cbn [bind]; [|exfalso; eapply tabs_not_err; exact E|reflexivity].
          fnorm. rewrite zsucc, prefixed_emit, <- !app_assoc. apply IH1. lia.
        + fnorm. rewrite zsucc, prefixed_emit, <- !app_assoc. apply IH1. lia.
        + fnorm. rewrite zsucc, prefixed_emit. apply IH1. lia.
    Qed.
  End Indent.
  Theorem Indent_go_spec json : (length json < fuel)%nat -> F.Indent_go fuel json = match Indent json with Ok r => Ret r | _ => Pan end.
  Proof.
    intro H. unfold F.Indent_go, func, call. rewrite Flatten_go_spec by exact H. unfold then_, var, Indent.
    pose proof (flatten_len (length json) json false (le_n _)) as L. pose proof (indent_go (Flatten json) ltac:(unfold Flatten; lia) (Flatten json) 0 fuel 0 false [] eq_refl ltac:(unfold Flatten; lia) ltac:(lia)) as K.
    change (Z.of_nat 0) with 0 in K. cbn [app] in K. destruct (leave _) as [s|s|s|s|r| |]; cbn [told] in K; destruct (indent_loop _ _ _ _); cbn [prefixed app] in K; try discriminate K; try reflexivity; exact K.
  Qed.
End Format.
