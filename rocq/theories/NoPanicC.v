(** No panic, third part: iteration over arrays, type tests, and the functions for which the text must be a document. *)
From Coq Require Import String.
From Verif Require Import GoStd Json Core Errors Api Iter Skip Focus CoreProofs NoPanic NoPanicB.

Local Open Scope N_scope.

(** ** A value text with one quote is the only one [cleanValue] panics on *)
Definition quotes (s : bytes) : nat := count_occ N.eq_dec s 34.

Lemma quotes_app s t : quotes (s ++ t) = (quotes s + quotes t)%nat.
Proof. apply count_occ_app. Qed.

Lemma quotes_rev s : quotes (rev s) = quotes s.
Proof.
  induction s as [|c s IH]; [reflexivity|]. cbn [rev]. rewrite quotes_app, IH. unfold quotes. cbn [count_occ].
  destruct (N.eq_dec c 34); lia.
Qed.

Lemma quotes_trim1 s : quotes (trim1 s) = quotes s.
Proof.
  induction s as [|c s IH]; [reflexivity|]. cbn [trim1]. destruct s as [|d s]; [reflexivity|].
  destruct (space c) eqn:E; [|reflexivity]. rewrite IH. unfold quotes. cbn [count_occ].
  destruct (N.eq_dec c 34) as [->|]; [discriminate|reflexivity].
Qed.

Lemma cleanValue_total v : quotes v <> 1%nat -> cleanValue v <> Panic.
Proof.
  intro H. unfold cleanValue.
  set (t := rev (trim1 (rev (trim1 v)))).
  assert (Hq : quotes t = quotes v) by (unfold t; rewrite quotes_rev, quotes_trim1, quotes_rev, quotes_trim1; reflexivity).
  destruct v as [|c0 v0]; [discriminate|]. cbv zeta.
  destruct ((hd 0 t =? 34) && (last t 0 =? 34)) eqn:E; [|discriminate].
  destruct t as [|x [|y t]]; [discriminate| |discriminate]. nbool. cbn [hd] in *. subst x.
  exfalso. apply H. rewrite <- Hq. reflexivity.
Qed.

Lemma cleanValue_no_err v e : cleanValue v <> Err e.
Proof.
  unfold cleanValue. destruct v; [discriminate|]. cbv zeta.
  match goal with |- context [if ?x then _ else _] => destruct x end; [|discriminate].
  match goal with |- context [match ?x with _ => _ end] => destruct x as [|? [|? ?]] end; discriminate.
Qed.

Lemma iter_arr_total {St} json closes (cb : St -> bytes -> St * (bool * option err)) : forall rest pre seg lv inq s,
  json = pre ++ seg ++ rest -> (if inq : bool then quotes seg <> O else quotes seg <> 1%nat) ->
  iter_arr json closes cb rest (length pre + length seg) (length pre) lv inq s <> IPanic.
Proof.
  induction rest as [|c r IH]; intros pre seg lv inq s Hj Hq; cbn [iter_arr]; [discriminate|].
  assert (Hj' : json = pre ++ (seg ++ [c]) ++ r) by (rewrite Hj, <- app_assoc; reflexivity).
  assert (Go : forall lv inq s, (if inq : bool then quotes (seg ++ [c]) <> O else quotes (seg ++ [c]) <> 1%nat) ->
    iter_arr json closes cb r (S (length pre + length seg)) (length pre) lv inq s <> IPanic).
  { intros lv' q' s' Hq'. specialize (IH pre (seg ++ [c]) lv' q' s' Hj' Hq'). rewrite app_length in IH. cbn [length] in IH.
    replace (length pre + (length seg + 1))%nat with (S (length pre + length seg)) in IH by lia. exact IH. }
  assert (Qs : quotes (seg ++ [c]) = (quotes seg + quotes [c])%nat) by apply quotes_app.
  destruct (c =? 34) eqn:E34.
  - nbool. subst c. change (quotes [34]) with 1%nat in Qs. apply Go. rewrite Qs.
    destruct inq; [destruct (closes (length pre + length seg)%nat); cbn [negb]; lia|lia].
  - nbool. assert (Q0 : quotes [c] = O) by (unfold quotes; cbn [count_occ]; destruct (N.eq_dec c 34); [contradiction|reflexivity]).
    rewrite Q0, Nat.add_0_r in Qs. rewrite Qs in Go.
    destruct inq; [apply Go; exact Hq|].
    destruct (is_open c); [apply Go; exact Hq|].
    assert (Sl : slice json (length pre) (length pre + length seg) = Ok seg)
      by (apply (slice_app_eq json pre seg (c :: r)); [exact Hj|reflexivity|reflexivity]).
    pose proof (cleanValue_total seg Hq) as NP. pose proof (fun e => cleanValue_no_err seg e) as NE.
    destruct (is_close c).
    + destruct (lv =? 0)%nat; [discriminate|].
      destruct ((c =? 93) && (lv =? 1)%nat); [|apply Go; exact Hq].
      rewrite Sl. cbn [ibind]. destruct (cleanValue seg) as [v| |]; cbn [ibind]; [|exfalso; eapply NE; reflexivity|contradiction].
      destruct (cb s v) as [s' [go er]]. discriminate.
    + destruct ((lv =? 1)%nat && (c =? 44)); [|apply Go; exact Hq].
      rewrite Sl. cbn [ibind]. destruct (cleanValue seg) as [v| |]; cbn [ibind]; [|exfalso; eapply NE; reflexivity|contradiction].
      destruct (cb s v) as [s' [go er]]. destruct er; [discriminate|]. destruct go; [|discriminate].
      specialize (IH ((pre ++ seg) ++ [c]) [] lv false s'). rewrite length_snoc, app_length in IH. cbn [length] in IH.
      rewrite Nat.add_0_r in IH. apply IH; [rewrite Hj, <- !app_assoc; reflexivity|cbn; discriminate].
Qed.

Lemma skip_last_total : forall rest i, rest <> [] -> skip_space_last rest i <> Panic /\
  forall n, skip_space_last rest i = Ok n -> (i <= n < i + length rest)%nat.
Proof.
  induction rest as [|c r IH]; intros i H; [contradiction|]. cbn [skip_space_last length].
  destruct (space c).
  - destruct r as [|d r]; [split; intros; discriminate|]. destruct (IH (S i) ltac:(discriminate)) as [N1 N2].
    split; [exact N1|]. intros n E. apply N2 in E. lia.
  - split; [discriminate|]. intros n [= <-]. lia.
Qed.

Lemma IterateArray_total {St} json (cb : St -> bytes -> St * (bool * option err)) path s :
  path = [] \/ ended json -> IterateArray json cb path s <> IPanic.
Proof.
  intro EN. unfold IterateArray. destruct (length json <? 2)%nat eqn:E2; [discriminate|].
  destruct (length json =? 2)%nat; [destruct (bytes_eqb json (b "[]")); discriminate|].
  apply Nat.ltb_ge in E2.
  assert (Go : forall start, (start < length json)%nat ->
    ibind s (at_ json start) (fun c =>
      if c =? 91 then iter_arr json (closes1 json) cb (skipn (S start) json) (S start) (S start) 1 false s
      else IDone s (Some EArrayExpected)) <> IPanic).
  { intros start Hs. destruct (at_ok json start Hs) as (c & Ec & _). rewrite Ec. cbn [ibind].
    destruct (c =? 91); [|discriminate].
    pose proof (iter_arr_total json (closes1 json) cb (skipn (S start) json) (firstn (S start) json) [] 1 false s) as H.
    rewrite firstn_length_le in H by lia. cbn [length] in H. rewrite Nat.add_0_r in H.
    apply H; [cbn [app]; symmetry; apply firstn_skipn|cbn; discriminate]. }
  destruct path as [|p path].
  - destruct (skip_last_total json 0) as [N1 N2]; [intros ->; cbn in E2; lia|].
    destruct (skip_space_last json 0) as [n| |]; cbn [ibind]; [|discriminate|contradiction].
    apply Go. specialize (N2 n eq_refl). lia.
  - destruct EN as [EN|EN]; [discriminate|].
    destruct (core_inv json (p :: path) EN ltac:(discriminate)) as (N1 & _ & N2 & _).
    destruct (core json true (p :: path)) as [[[ks st] e]| |]; cbn [bind ibind]; [|discriminate|contradiction].
    apply Go. specialize (N2 ks st e eq_refl). destruct N2 as (_ & N2 & _). exact N2.
Qed.

Section Types.
  Variable json : bytes.
  Hypothesis EN : ended json.

  Lemma start_of_total path : start_of json path <> Panic /\ forall s, start_of json path = Ok s -> (s < length json)%nat.
  Proof.
    unfold start_of. destruct path as [|p path].
    - destruct (skip_space_inv json json 0 eq_refl (proj1 EN)) as (o & c & E & _ & Hc & _). rewrite E.
      split; [discriminate|]. intros s [= <-]. eapply nth_error_ext; exact Hc.
    - destruct (core_inv json (p :: path) EN ltac:(discriminate)) as (N1 & _ & N2 & _).
      destruct (core json true (p :: path)) as [[[ks st] e]| |]; cbn [bind]; [|split; intros; discriminate|contradiction].
      split; [discriminate|]. intros s [= <-]. destruct (N2 ks st e eq_refl) as (_ & H & _). exact H.
  Qed.

  Lemma typeControl_total control eq path : typeControlCore json control eq path <> Panic /\
    forall x s, typeControlCore json control eq path = Ok (x, s) -> (s < length json)%nat.
  Proof.
    unfold typeControlCore. destruct json as [|c0 j0] eqn:Ej; [split; intros; discriminate|]. rewrite <- Ej in *.
    destruct (start_of_total path) as [N1 N2].
    destruct (start_of json path) as [s| |]; cbn [bind]; [|split; intros; discriminate|contradiction].
    specialize (N2 s eq_refl). destruct (at_ok json s N2) as (c & Ec & _). rewrite Ec.
    assert (H : exists x, match control with [] => Ok 0 | _ :: _ => Ok c end = Ok x) by (destruct control; eauto).
    destruct H as [x ->]. cbn [bind]. destruct (existsb (N.eqb x) control); (split; [discriminate|]); intros ? ? [= _ <-]; exact N2.
  Qed.

  Lemma types_total path : IsObject json path <> Panic /\ IsArray json path <> Panic /\ IsValue json path <> Panic.
  Proof.
    unfold IsObject, IsArray, IsValue. repeat split;
      match goal with |- context [typeControlCore json ?c ?e path] => destruct (typeControl_total c e path) as [N _];
        destruct (typeControlCore json c e path) as [[? ?]| |]; cbn [bind]; [discriminate|discriminate|contradiction] end.
  Qed.

  Lemma GetType_total pf path : GetType pf json path <> Panic.
  Proof.
    unfold GetType. destruct (typeControl_total [] false path) as [N1 N2].
    destruct (typeControlCore json [] false path) as [[x s]| |]; cbn [bind]; [|discriminate|contradiction].
    destruct (at_ok json s (N2 x s eq_refl)) as (c & Ec & _). rewrite Ec. cbn [bind].
    repeat match goal with |- (if ?x then _ else _) <> _ => destruct x; [discriminate|] end.
    pose proof (Get_total json EN path) as NG. unfold GetString. destruct (Get json path) as [v| |]; cbn [bind]; [|discriminate|contradiction].
    repeat match goal with
           | |- (if ?x then _ else _) <> _ => destruct x
           | |- match ?x with _ => _ end <> _ => destruct x
           end; discriminate.
  Qed.

  Lemma last_nonspace_lt : (last_nonspace json < length json)%nat.
  Proof.
    unfold last_nonspace. rewrite rev_length.
    assert (H : forall s : bytes, (length (trim1 s) <= length s)%nat).
    { induction s as [|c s IH]; [reflexivity|]. cbn [trim1]. destruct s as [|d s]; [reflexivity|].
      destruct (space c); [|reflexivity]. cbn [length] in *. lia. }
    specialize (H (rev json)). rewrite rev_length in H. pose proof (live_length json EN). lia.
  Qed.

  Lemma IsEmpty_total path : IsEmpty json path <> Panic.
  Proof.
    unfold IsEmpty. destruct json as [|c0 j0] eqn:Ej; [discriminate|]. rewrite <- Ej in *.
    assert (H : exists r, (match path with
         | [] => do s <- skip_space json 0; Ok (s, last_nonspace json)
         | _ => do '(_, s, e) <- core json false path; Ok (s, pred e)
         end) = r /\ match r with Ok (s, e) => (s < length json)%nat /\ (e < length json)%nat | Err _ => True | Panic => False end).
    { eexists. split; [reflexivity|]. destruct path as [|p path].
      - destruct (skip_space_inv json json 0 eq_refl (proj1 EN)) as (o & c & E & _ & Hc & _). rewrite E. cbn [bind].
        split; [eapply nth_error_ext; exact Hc|exact last_nonspace_lt].
      - pose proof (core_total json EN false (p :: path) ltac:(discriminate)) as NP.
        destruct (core json false (p :: path)) as [[[ks s] e]| |] eqn:E; cbn [bind]; [|exact I|contradiction].
        apply core_range in E; [|exact EN|discriminate]. lia. }
    destruct H as (r & -> & Hr). destruct r as [[s e]| |]; cbn [bind]; [|discriminate|contradiction].
    destruct Hr as [Hs He]. destruct (at_ok json s Hs) as (c & -> & _). destruct (at_ok json e He) as (d & -> & _). cbn [bind].
    destruct (is_open c); [|discriminate]. destruct (c + 2 =? d); discriminate.
  Qed.

  Lemma Length_total path : Length json path <> Panic.
  Proof.
    unfold Length. destruct (bytes_eqb json (b "[]") || bytes_eqb json (b "{}")); [discriminate|].
    assert (NP : getStartEnd json path <> Panic).
    { unfold getStartEnd. destruct (length json <? 2)%nat; [discriminate|]. destruct path as [|p path].
      - destruct (skip_space_inv json json 0 eq_refl (proj1 EN)) as (o & c & E & _). rewrite E. discriminate.
      - pose proof (core_total json EN false (p :: path) ltac:(discriminate)) as NP.
        destruct (core json false (p :: path)) as [[[ks s] e]| |]; cbn [bind]; [discriminate|discriminate|contradiction]. }
    destruct (getStartEnd json path) as [[s e]| |]; cbn [bind]; [|discriminate|contradiction].
    match goal with |- match ?x with _ => _ end <> _ => destruct x end; [|discriminate].
    match goal with |- (if ?x then _ else _) <> _ => destruct x end; discriminate.
  Qed.

  Lemma reads_total {F} (ff : bytes -> option F) path :
    GetInt json path <> Panic /\ GetBool json path <> Panic /\ GetFloat ff json path <> Panic.
  Proof.
    pose proof (Get_total json EN path) as NG. unfold GetInt, GetBool, GetFloat, GetString.
    destruct (Get json path) as [v| |]; cbn [bind]; [|repeat split; discriminate|contradiction].
    repeat split.
    - destruct (atoi v); discriminate.
    - destruct (bytes_eqb v (b "true")); [discriminate|]. destruct (bytes_eqb v (b "false")); discriminate.
    - destruct (ff v); discriminate.
  Qed.

  Lemma GetAll_total path : forall keys, GetAll json keys path <> Panic.
  Proof.
    induction keys as [|k r IH]; cbn [GetAll]; [discriminate|].
    pose proof (Get_total json EN (path ++ [k])) as NG. unfold GetString.
    destruct (Get json (path ++ [k])); cbn [bind]; [|discriminate|contradiction].
    destruct (GetAll json r path); cbn [bind]; [discriminate|discriminate|contradiction].
  Qed.

  Lemma GetAllMap_total path keys : GetAllMap json keys path <> Panic.
  Proof.
    unfold GetAllMap. generalize (@nil (bytes * bytes)) as m. induction keys as [|k r IH]; intro m; cbn [get_all_map]; [discriminate|].
    pose proof (Get_total json EN (path ++ [k])) as NG. unfold GetString.
    destruct (Get json (path ++ [k])); cbn [bind]; [apply IH|discriminate|contradiction].
  Qed.
End Types.

(** ** Documents *)
Lemma render_last v : wf v = true -> exists l c, render v = l ++ [c] /\ is_ws c = false /\ ~ opener c /\
  (is_close c = true -> container v = true).
Proof.
  unfold opener. destruct v as [s|s|w els|w ms]; intro Hw.
  - cbn [wf] in Hw. apply scalar_ok_inv in Hw. destruct Hw as [Hne HF].
    destruct (exists_last Hne) as (l & c & ->). exists l, c. split; [reflexivity|].
    apply Forall_app in HF. destruct HF as [_ HF]. inversion HF as [|? ? Hc _]. subst.
    destruct (token_plain c Hc) as (Hp & _ & Hws). apply plain_neq in Hp. split; [exact Hws|]. split; [lia|].
    intro X. apply close_cases in X. lia.
  - exists (34 :: s), 34. repeat split; try reflexivity; [lia|discriminate].
  - exists (91 :: w ++ join (map (fun e => e_pre e ++ render (e_val e) ++ e_post e) els)), 93.
    repeat split; try reflexivity; [|lia]. cbn [render app]. rewrite <- app_assoc. reflexivity.
  - exists (123 :: w ++ join (map (fun m => m_pre m ++ 34 :: m_key m ++ 34 :: m_mid m ++ 58 :: m_mid2 m ++ render (m_val m) ++ m_post m) ms)), 125.
    repeat split; try reflexivity; [|lia]. cbn [render app]. rewrite <- app_assoc. reflexivity.
Qed.

Lemma ended_text l c w : is_ws c = false -> ~ opener c -> ws_ok w = true -> ended (l ++ c :: w).
Proof.
  intros Hc Ho Hw.
  assert (Hat : nth_error (l ++ c :: w) (length l) = Some c) by (rewrite nth_error_app2, Nat.sub_diag by lia; reflexivity).
  split; [exists (length l), c; repeat split; [lia|exact Hat|exact Hc]|].
  intros i d Hi Hd. exists (length l), c. split; [|split; [exact Hat|exact Hc]].
  destruct (lt_eq_lt_dec i (length l)) as [[H|H]|H]; [lia| |].
  - subst i. rewrite Hat in Hi. injection Hi as <-. contradiction.
  - rewrite nth_error_app2 in Hi by lia. destruct (i - length l)%nat as [|n] eqn:En; [lia|]. cbn [nth_error] in Hi.
    apply nth_error_In in Hi. apply ws_ok_Forall in Hw. rewrite Forall_forall in Hw. apply Hw in Hi.
    apply ws_cases in Hi. unfold opener in Hd. lia.
Qed.

Lemma doc_split d : wf_doc d = true -> exists l c, text d = l ++ c :: d_post d /\ is_ws c = false /\ ~ opener c /\
  (is_close c = true -> container (d_val d) = true) /\ ws_ok (d_post d) = true /\ ws_ok (d_pre d) = true /\ wf (d_val d) = true.
Proof.
  unfold wf_doc. intro H. nbool. destruct (render_last _ H1) as (l & c & E & H2 & H3 & H4).
  exists (d_pre d ++ l), c. unfold text. rewrite E, <- !app_assoc. repeat split; auto.
Qed.

Lemma doc_ended d : wf_doc d = true -> ended (text d).
Proof. intro H. destruct (doc_split d H) as (l & c & -> & H1 & H2 & _ & H3 & _). apply ended_text; assumption. Qed.

(** Two runs of the close-brace search over the same text: one inside the braces of the other, or one inside a
    string when the other is outside.  They do not end at the same brace. *)
Lemma close_apart json : forall rest i a q b' q' e1 e2,
  close_loop json rest i a q = Some e1 -> close_loop json rest i b' q' = Some e2 ->
  (q' = q /\ (1 <= b' < a)%nat) \/ q' = negb q -> e1 <> e2.
Proof.
  assert (LE : forall rest i a q e, close_loop json rest i a q = Some e -> (i < e)%nat).
  { induction rest as [|c r IH]; intros i a q e H; cbn [close_loop] in H; [discriminate|].
    repeat match type of H with (if ?x then _ else _) = _ => destruct x end; try (apply IH in H; lia). injection H as <-. lia. }
  induction rest as [|c r IH]; intros i a q b' q' e1 e2 H1 H2 Hr; cbn [close_loop] in *; [discriminate|].
  destruct (c =? 34) eqn:E34.
  - eapply IH; [exact H1|exact H2|]. unfold toggle.
    destruct Hr as [[-> Hb]| ->]; [left; auto|right]. destruct (qscan json i) as [[]|]; reflexivity.
  - destruct Hr as [[-> Hb]| ->].
    + destruct q; [eapply IH; eauto|].
      destruct (is_open c); [eapply IH; [exact H1|exact H2|left; split; [reflexivity|lia]]|].
      destruct (is_close c); [|eapply IH; eauto].
      rewrite (proj2 (Nat.eqb_neq a 1)) in H1 by lia.
      destruct (b' =? 1)%nat eqn:Eb.
      * injection H2 as <-. apply LE in H1. lia.
      * apply Nat.eqb_neq in Eb. eapply IH; [exact H1|exact H2|left; split; [reflexivity|lia]].
    + destruct q; cbn [negb] in *.
      * destruct (is_open c); [eapply IH; [exact H1|exact H2|right; reflexivity]|].
        destruct (is_close c); [|eapply IH; [exact H1|exact H2|right; reflexivity]].
        destruct (b' =? 1)%nat; [injection H2 as <-; apply LE in H1; lia|eapply IH; [exact H1|exact H2|right; reflexivity]].
      * destruct (is_open c); [eapply IH; [exact H1|exact H2|right; reflexivity]|].
        destruct (is_close c); [|eapply IH; [exact H1|exact H2|right; reflexivity]].
        destruct (a =? 1)%nat; [injection H1 as <-; apply LE in H2; lia|eapply IH; [exact H1|exact H2|right; reflexivity]].
Qed.

(** The run from a level of at least one, as it passes a position before its end. *)
Lemma close_reach json : forall p r i a q e, (1 <= a)%nat -> close_loop json (p ++ r) i a q = Some e ->
  (i + length p < e)%nat -> exists a' q', (1 <= a')%nat /\ close_loop json r (i + length p) a' q' = Some e.
Proof.
  induction p as [|c p IH]; intros r i a q e Ha H He.
  - cbn [app length] in *. rewrite Nat.add_0_r. eauto.
  - cbn [app length close_loop] in *. replace (i + S (length p))%nat with (S i + length p)%nat in * by lia.
    repeat match type of H with (if ?x then _ else _) = _ => destruct x eqn:? end;
      try (eapply IH; [|exact H|exact He]; lia).
    + injection H as <-. lia.
    + eapply IH; [|exact H|exact He].
      match goal with X : (a =? 1)%nat = false |- _ => apply Nat.eqb_neq in X end. lia.
Qed.

Lemma doc_close d o off e c : wf_doc d = true -> first_at (text d) o -> (o < off)%nat -> nth_error (text d) off = Some c ->
  is_open c = true -> close_loop (text d) (skipn off (text d)) off 0 false = Some e -> (e < length (text d))%nat.
Proof.
  intros Hw Ho Hoff Hc Hop H. destruct (doc_split d Hw) as (l & x & Et & Hx & _ & Hcl & Hpost & Hpre & Hv).
  pose proof (close_end _ _ _ _ _ _ eq_refl H) as [He (y & Hy & Hyc)].
  (* the closing brace is not among the trailing blanks *)
  assert (HL : length (text d) = (length l + S (length (d_post d)))%nat) by (rewrite Et, app_length; reflexivity).
  assert (Hle : (e <= S (length l))%nat).
  { destruct (le_lt_dec e (S (length l))) as [|Hgt]; [assumption|exfalso].
    rewrite Et, nth_error_app2 in Hy by lia. destruct (pred e - length l)%nat as [|n] eqn:En; [lia|]. cbn [nth_error] in Hy.
    apply nth_error_In in Hy. apply ws_ok_Forall in Hpost. rewrite Forall_forall in Hpost. apply Hpost in Hy.
    apply ws_cases in Hy. apply close_cases in Hyc. lia. }
  destruct (Nat.eq_dec e (S (length l))) as [->|]; [|lia].
  cbn [pred] in Hy. rewrite Et, nth_error_app2, Nat.sub_diag in Hy by lia. injection Hy as <-.
  specialize (Hcl Hyc).
  (* the run over the whole document *)
  pose proof (close_value (text d) (d_pre d) (d_val d) (d_post d) Hv Hcl eq_refl) as HR.
  assert (Hop2 : exists oc r, render (d_val d) = oc :: r /\ is_open oc = true).
  { destruct (d_val d) as [?|?|w els|w ms]; try discriminate Hcl; eexists; eexists; split; reflexivity. }
  destruct Hop2 as (oc & r & Er & Hoc).
  assert (Eo : o = length (d_pre d)).
  { unfold first_at, text in Ho. rewrite Er in Ho. cbn [app] in Ho. rewrite skip_space_ws in Ho; [|exact Hpre|].
    - injection Ho as <-. lia.
    - apply open_cases in Hoc. destruct Hoc; subst oc; reflexivity. }
  assert (Hend : length (d_pre d ++ render (d_val d)) = S (length l)).
  { assert (length (text d) = length (d_pre d ++ render (d_val d)) + length (d_post d))%nat by (unfold text; rewrite !app_length; lia). lia. }
  rewrite Hend in HR. rewrite Er in HR. cbn [app] in HR.
  assert (E34 : (oc =? 34) = false) by (apply open_cases in Hoc; destruct Hoc; subst oc; reflexivity).
  cbn [close_loop] in HR. rewrite E34, Hoc in HR.
  assert (Hsk : r ++ d_post d = skipn (S o) (text d)).
  { unfold text. rewrite Er, Eo. cbn [app]. rewrite app_cons_assoc. symmetry. apply skipn_app_eq. rewrite length_snoc. reflexivity. }
  rewrite Hsk in HR. rewrite <- Eo in HR.
  assert (Hsp : skipn (S o) (text d) = firstn (off - S o) (skipn (S o) (text d)) ++ skipn off (text d)).
  { rewrite <- (firstn_skipn (off - S o) (skipn (S o) (text d))) at 1. f_equal. rewrite skipn_skipn'. f_equal. lia. }
  pose proof (nth_error_ext _ _ _ Hc) as Hlt.
  assert (Hfl : length (firstn (off - S o) (skipn (S o) (text d))) = (off - S o)%nat)
    by (rewrite firstn_length_le; [reflexivity|rewrite skipn_length; lia]).
  rewrite Hsp in HR. apply close_reach in HR; [|lia|rewrite Hfl; lia].
  destruct HR as (a' & q' & Ha' & HR). rewrite Hfl in HR. replace (S o + (off - S o))%nat with off in HR by lia.
  (* one step of both runs, over the brace at [off] *)
  exfalso. destruct (skipn off (text d)) as [|c' r'] eqn:Es; [discriminate H|].
  symmetry in Es. apply skipn_step in Es. destruct Es as [Hc' Es]. rewrite Hc in Hc'. injection Hc' as <-.
  assert (E34c : (c =? 34) = false) by (apply open_cases in Hop; destruct Hop; subst c; reflexivity).
  cbn [close_loop] in H, HR. rewrite E34c, Hop in H, HR.
  destruct q'.
  - eapply (close_apart (text d)); [exact HR|exact H|right; reflexivity|reflexivity].
  - eapply (close_apart (text d)); [exact HR|exact H|left; split; [reflexivity|lia]|reflexivity].
Qed.

(** A lookup in a document never ends at the end of the text. *)
Lemma core_inside d path ks s e : wf_doc d = true -> path <> [] -> core (text d) false path = Ok (ks, s, e) -> (e < length (text d))%nat.
Proof.
  intros Hw Hp H. destruct (core_inv (text d) path (doc_ended d Hw) Hp) as (_ & _ & _ & HI). apply HI in H.
  destruct H as (_ & off & ((o & Ho & Hlt) & _) & (_ & _ & [(_ & _ & H)|[(_ & H)|(-> & H & c & Hc & Hop)]])); [exact H|exact H|].
  eapply doc_close; eassumption.
Qed.

Lemma back_edge_ok json : forall i, (i < length json)%nat -> exists n, back_edge json i = Ok n /\ (n <= i)%nat.
Proof.
  induction i as [|i IH]; intro H; cbn [back_edge]; [eauto|].
  destruct (at_ok json (S i) H) as (c & -> & _). cbn [bind]. destruct (space c); [|eauto].
  destruct IH as (n & E & Hn); [lia|]. exists n. split; [exact E|lia].
Qed.

Lemma fwd_edge_ok json : forall rest i, (0 < length json)%nat -> rest = skipn i json -> (fwd_edge rest i < length json)%nat.
Proof.
  induction rest as [|c r IH]; intros i H0 H; cbn [fwd_edge]; [exact H0|].
  apply skipn_step in H. destruct H as [Hc Hr]. destruct (space c); [apply IH; assumption|eapply nth_error_ext; exact Hc].
Qed.

Lemma Insert_total d index value path : wf_doc d = true -> Insert (text d) index value path <> UPanic.
Proof.
  intro Hw. pose proof (doc_ended d Hw) as EN. unfold Insert.
  destruct (target_ok (text d) EN 91 93 EArrayExpected path) as [NP H].
  destruct (target_span (text d) 91 93 EArrayExpected path) as [[s0 e0]| |]; cbn [ubind]; [|discriminate|contradiction].
  specialize (H s0 e0 eq_refl). destruct H as [Hs0 He0].
  destruct (braces_ok (text d) s0 e0 91 93 Hs0 He0) as [x ->].
  cbn [pbind]. destruct x; [|discriminate].
  pose proof (core_total (text d) EN false (path ++ [itoa index]) (app_not_nil _ _)) as N2.
  destruct (core (text d) false (path ++ [itoa index])) as [[[ks s] e]| |] eqn:E; cbn [ubind]; [|discriminate|contradiction].
  pose proof (core_inside d _ _ _ _ Hw (app_not_nil _ _) E) as He.
  pose proof (core_range (text d) _ _ _ _ EN (app_not_nil _ _) E) as (R1 & R2 & R3 & R4).
  destruct (at_pred_ok (text d) s) as (c & -> & Hc); [lia|]. cbn [pbind]. cbv zeta.
  assert (Hs' : (1 <= (if (c =? 34)%N then pred s else s) <= s)%nat).
  { destruct (c =? 34) eqn:E34; [|lia]. nbool. destruct (R4 c Hc E34). lia. }
  set (s' := if c =? 34 then pred s else s) in *.
  destruct (at_ok (text d) e He) as (dd & -> & _). cbn [pbind].
  set (e' := if dd =? 34 then S e else e).
  destruct (back_edge_ok (text d) (pred s')) as (sedge & -> & Hsedge); [lia|]. cbn [pbind].
  pose proof (fwd_edge_ok (text d) (skipn e' (text d)) e' ltac:(lia) eq_refl) as Hee.
  destruct (at_ok (text d) sedge) as (sc & -> & _); [lia|]. cbn [pbind].
  destruct (at_ok (text d) _ Hee) as (ec & -> & _). cbn [pbind].
  destruct (is_open sc && (sc + 2 =? ec)); [apply replace_ok; lia|].
  destruct (ec =? 44); [apply replace_ok; lia|].
  destruct (sc =? 44); [|discriminate]. destruct s' as [|p]; [lia|]. apply replace_ok; lia.
Qed.

Lemma Delete_total d path : wf_doc d = true -> Forall (fun x => forall r, text d <> x ++ r) path -> Delete (text d) path <> UPanic.
Proof.
  intros Hw Hpath. pose proof (doc_ended d Hw) as EN. unfold Delete. destruct path as [|p0 path0]; [discriminate|].
  set (path := p0 :: path0) in *. assert (Hne : path <> []) by discriminate.
  pose proof (core_total (text d) EN false path Hne) as NP.
  destruct (core (text d) false path) as [[[ks s] e]| |] eqn:E; cbn [ubind]; [|discriminate|contradiction].
  pose proof (core_inside d _ _ _ _ Hw Hne E) as He.
  pose proof (core_range (text d) _ _ _ _ EN Hne E) as (R1 & R2 & R3 & R4).
  destruct (core_inv (text d) path EN Hne) as (_ & _ & _ & HI). pose proof (HI _ _ _ E) as (_ & off & (_ & _ & _ & _ & Hmark) & _).
  assert (Hks : forall n, ks = Some n -> (2 <= n <= length (text d))%nat).
  { intros n ->. destruct Hmark as [(_ & x & r & Hx & Hr)|Hm]; [|exact Hm].
    rewrite Forall_forall in Hpath. exfalso. exact (Hpath x Hx r Hr). }
  assert (Hgo : forall start, (1 <= start <= length (text d))%nat ->
    (start < length (text d))%nat ->
    pbind (at_pred (text d) start) (fun c =>
          let start := if c =? 34 then pred start else start in
          pbind (at_ (text d) e) (fun dd =>
          let e := if dd =? 34 then S e else e in
          pbind (back_edge (text d) (pred start)) (fun sedge =>
          let eedge := fwd_edge (skipn e (text d)) e in
          pbind (at_ (text d) sedge) (fun sc =>
          pbind (at_ (text d) eedge) (fun ec =>
          if is_open sc && (sc + 2 =? ec) then done_replace (text d) [] start e
          else if ec =? 44 then done_replace (text d) [] start (S eedge)
          else if sc =? 44 then done_replace (text d) [] sedge e
          else Fail (Some (text d)) (EBadJSON start)))))) <> UPanic).
  { intros start Hst Hst2. destruct (at_pred_ok (text d) start Hst) as (c & -> & Hc). cbn [pbind]. cbv zeta.
    set (st' := if c =? 34 then pred start else start). assert (Hst' : (st' <= start)%nat) by (unfold st'; destruct (c =? 34); lia).
    destruct (at_ok (text d) e He) as (dd & -> & _). cbn [pbind].
    set (e' := if dd =? 34 then S e else e). assert (He' : (e' <= length (text d))%nat) by (unfold e'; destruct (dd =? 34); lia).
    destruct (back_edge_ok (text d) (pred st')) as (sedge & -> & Hsedge); [lia|]. cbn [pbind].
    pose proof (fwd_edge_ok (text d) (skipn e' (text d)) e' ltac:(lia) eq_refl) as Hee.
    destruct (at_ok (text d) sedge) as (sc & -> & _); [lia|]. cbn [pbind].
    destruct (at_ok (text d) _ Hee) as (ec & -> & _). cbn [pbind].
    destruct (is_open sc && (sc + 2 =? ec)); [apply replace_ok; lia|].
    destruct (ec =? 44); [apply replace_ok; lia|].
    destruct (sc =? 44); [apply replace_ok; lia|discriminate]. }
  destruct ks as [[|n]|].
  - specialize (Hks _ eq_refl). lia.
  - apply Hgo; specialize (Hks _ eq_refl); cbn [pred]; lia.
  - apply Hgo; lia.
Qed.
