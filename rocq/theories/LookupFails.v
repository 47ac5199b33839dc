(** C56: what the functions of the interpreter answer when the lookup of their path fails. *)
From Coq Require Import String.
From Verif Require Import GoStd Core Errors Api Typed Iter SpecFails.

Local Open Scope N_scope.

(** ** The errors of a lookup *)
Lemma skip_space_err rest : forall i e, skip_space rest i <> Err e.
Proof. induction rest as [|c r IH]; intros i e; cbn; [discriminate|]. destruct (space c); [apply IH|discriminate]. Qed.

Lemma arr0_err rest : forall i last e, arr0_loop rest i last = Err e -> e = EIndexOutOfRange.
Proof.
  induction rest as [|c r IH]; intros i last e; cbn; [discriminate|].
  repeat match goal with |- context [if ?x then _ else _] => destruct x end; try discriminate; try (intro H; injection H; congruence); apply IH.
Qed.

Lemma arr_err json rest : forall i last t level inq found cnt e, arr_loop json rest i last t level inq found cnt = Err e -> e = EIndexOutOfRange.
Proof.
  induction rest as [|c r IH]; intros i last t level inq found cnt e; cbn.
  - destruct found; [discriminate|]. intro H; injection H; congruence.
  - repeat match goal with |- context [if ?x then _ else _] => destruct x end; try discriminate; try (intro H; injection H; congruence); apply IH.
Qed.

Lemma key_err json path rest : forall i resume k level found inq start end_ st e, In (cur st) path ->
  key_loop json path rest i resume k level found inq start end_ st = Err e -> exists x, e = EKeyNotFound x /\ In x path.
Proof.
  induction rest as [|c r IH]; intros i resume k level found inq start end_ st e Hc; cbn [key_loop].
  - destruct found; [discriminate|]. intro H; injection H as <-. eauto.
  - destruct (i <? resume)%nat; [apply IH; exact Hc|]. destruct (c =? 34).
    { destruct found; [apply IH; exact Hc|]. destruct (negb _); [apply IH; exact Hc|].
      destruct (qscan json i) as [[|]|]; cbv zeta; try (apply IH; exact Hc);
        match goal with |- context [if ?x then _ else _] => destruct x end; apply IH; exact Hc. }
    destruct inq; [apply IH; exact Hc|]. destruct (_ && (c =? 58)).
    { destruct (key_match _ _ _ _).
      - destruct (_ =? _)%nat; [discriminate|]. apply IH. exact Hc.
      - destruct (jump_loop _ _ _ _ _ _); [apply IH; exact Hc| |apply IH; exact Hc]. intro H; injection H as <-. eauto. }
    destruct (c =? 91).
    { destruct found; [|apply IH; exact Hc]. destruct (nth_error path (S k)); discriminate. }
    destruct (c =? 123).
    { destruct found; [|apply IH; exact Hc]. destruct (nth_error path (S k)) as [p|] eqn:Hn; [|discriminate].
      apply IH. cbn. eapply nth_error_In. exact Hn. }
    destruct (is_close c); [|apply IH; exact Hc].
    destruct (_ <? _)%nat; [|apply IH; exact Hc]. intro H; injection H as <-. eauto.
Qed.

Lemma key_cur json path rest : forall i resume k level found inq start end_ st k' st', In (cur st) path ->
  key_loop json path rest i resume k level found inq start end_ st = Ok (k', st') -> In (cur st') path.
Proof.
  induction rest as [|c r IH]; intros i resume k level found inq start end_ st k' st' Hc; cbn [key_loop].
  - destruct found; [|discriminate]. intro H; injection H as <- <-. exact Hc.
  - destruct (i <? resume)%nat; [apply IH; exact Hc|]. destruct (c =? 34).
    { destruct found; [apply IH; exact Hc|]. destruct (negb _); [apply IH; exact Hc|].
      destruct (qscan json i) as [[|]|]; cbv zeta; try (apply IH; exact Hc);
        match goal with |- context [if ?x then _ else _] => destruct x end; apply IH; exact Hc. }
    destruct inq; [apply IH; exact Hc|]. destruct (_ && (c =? 58)).
    { destruct (key_match _ _ _ _).
      - destruct (_ =? _)%nat; [|apply IH; exact Hc]. intro H; injection H as <- <-. exact Hc.
      - destruct (jump_loop _ _ _ _ _ _); [apply IH; exact Hc|discriminate|apply IH; exact Hc]. }
    destruct (c =? 91).
    { destruct found; [|apply IH; exact Hc]. destruct (nth_error path (S k)) eqn:Hn; [|discriminate].
      intro H; injection H as <- <-. eapply nth_error_In. exact Hn. }
    destruct (c =? 123).
    { destruct found; [|apply IH; exact Hc]. destruct (nth_error path (S k)) as [p|] eqn:Hn; [|discriminate].
      apply IH. cbn. eapply nth_error_In. exact Hn. }
    destruct (is_close c); [|apply IH; exact Hc].
    destruct (_ <? _)%nat; [discriminate|apply IH; exact Hc].
Qed.

Lemma arr_step_err json path k st e : arr_step json path k st = Err e -> e = EIndexExpected \/ e = EIndexOutOfRange.
Proof.
  unfold arr_step. cbv zeta. destruct (atoi (cur st)) as [z|]; [|intro H; injection H; auto].
  destruct (z =? 0)%Z.
  - destruct (arr0_loop _ _ _) as [o|e0|] eqn:Ho; cbn [bind]; [|intro H; injection H as <-; right; eapply arr0_err; exact Ho|discriminate].
    destruct o as [[i c]|]; [|discriminate]. destruct (_ =? _)%nat; [discriminate|]. destruct (nth_error _ _); discriminate.
  - destruct (arr_loop _ _ _ _ _ _ _ _ _) as [o|e0|] eqn:Ho; cbn [bind]; [|intro H; injection H as <-; right; eapply arr_err; exact Ho|discriminate].
    destruct o; [discriminate| |discriminate]. destruct (nth_error _ _); discriminate.
Qed.

Lemma arr_step_cur json path k st st' : In (cur st) path -> arr_step json path k st = Ok st' -> In (cur st') path.
Proof.
  intro Hc. unfold arr_step. cbv zeta. destruct (atoi (cur st)) as [z|]; [|discriminate].
  destruct (z =? 0)%Z.
  - destruct (arr0_loop _ _ _) as [o|e0|]; cbn [bind]; [|discriminate|discriminate].
    destruct o as [[i c]|]; [|intro H; injection H as <-; exact Hc]. destruct (_ =? _)%nat; [intro H; injection H as <-; exact Hc|].
    destruct (nth_error _ _) eqn:Hn; [|discriminate]. intro H; injection H as <-. eapply nth_error_In. exact Hn.
  - destruct (arr_loop _ _ _ _ _ _ _ _ _) as [o|e0|]; cbn [bind]; [|discriminate|discriminate].
    destruct o; try (intro H; injection H as <-; exact Hc).
    destruct (nth_error _ _) eqn:Hn; [|discriminate]. intro H; injection H as <-. eapply nth_error_In. exact Hn.
Qed.

Lemma outer_err json path todo : forall k resume st e, In (cur st) path -> outer json path todo k resume st = Err e ->
  early e = true /\ lookup_error path e.
Proof.
  induction todo as [|t todo IH]; intros k resume st e Hc; cbn [outer]; [discriminate|].
  destruct (_ <? _)%nat; [apply IH; exact Hc|]. destruct (brace st =? 91).
  - destruct (arr_step json path k st) as [st'|e0|] eqn:Hs; cbn [bind].
    + apply IH. eapply arr_step_cur; eassumption.
    + intro H; injection H as <-. destruct (arr_step_err _ _ _ _ _ Hs) as [-> | ->]; split; exact I || reflexivity.
    + discriminate.
  - destruct (key_loop _ _ _ _ _ _ _ _ _ _ _ _) as [[k' st']|e0|] eqn:Hs; cbn [bind].
    + apply IH. eapply key_cur; eassumption.
    + intro H; injection H as <-. destruct (key_err _ _ _ _ _ _ _ _ _ _ _ _ _ Hc Hs) as (x & -> & Hx). split; [reflexivity|exact Hx].
    + discriminate.
Qed.

Lemma at_err j i e : at_ j i <> Err e.
Proof. unfold at_. destruct (nth_error _ _); discriminate. Qed.
Lemma slice_err j s t e : slice j s t <> Err e.
Proof. unfold slice. destruct (_ && _)%bool; discriminate. Qed.

Lemma value_end_err json ks off e : value_end json ks off = Err e -> (exists n, e = EBadJSON n) \/ e = EEmptyArray.
Proof.
  unfold value_end. destruct (at_ json off) as [c|e0|] eqn:Ha; cbn [bind]; [|destruct (at_err _ _ _ Ha)|discriminate].
  destruct (is_open c); [destruct (close_loop _ _ _ _ _); [discriminate|]; intro H; injection H as <-; eauto|].
  destruct (c =? 34); [destruct (quote_loop _ _); [discriminate|]; intro H; injection H as <-; eauto|].
  destruct (token_loop _ _); [|intro H; injection H as <-; eauto].
  destruct (_ =? _)%nat; [|discriminate]. intro H; injection H as <-. eauto.
Qed.

(** The errors that come before the value are the same whether the end is asked for or not. *)
Lemma core_err json f p e : p <> [] -> core json f p = Err e -> lookup_error p e /\ (early e = true -> core json true p = Err e).
Proof.
  intro Hp. unfold core. destruct (_ <? _)%nat; [intro H; injection H as <-; split; [exact I|discriminate]|].
  destruct p as [|p0 p]; [contradiction|]. destruct (skip_space json 0) as [off|e0|] eqn:E0; cbn [bind]; [|destruct (skip_space_err _ _ _ E0)|discriminate].
  destruct (at_ json off) as [br|e0|] eqn:E1; cbn [bind]; [|destruct (at_err _ _ _ E1)|discriminate].
  destruct (outer _ _ _ _ _ _) as [st|e0|] eqn:E2; cbn [bind]; [| |discriminate].
  2:{ intro H; injection H as <-. eapply outer_err in E2; [|apply in_eq]. destruct E2 as [_ H]. auto. }
  destruct (_ =? _)%nat; [intro H; injection H as <-; split; [exact I|discriminate]|].
  destruct (skip_space (skipn _ _) _) as [off'|e0|] eqn:E3; cbn [bind]; [|destruct (skip_space_err _ _ _ E3)|discriminate].
  destruct f; [discriminate|]. intro H. destruct (value_end_err _ _ _ _ H) as [[n ->]| ->]; split; exact I || discriminate.
Qed.

Lemma get_err json p e : Get json p = Err e -> p <> [] /\ core json false p = Err e.
Proof.
  destruct p as [|x p]; [discriminate|]. cbn [Get]. destruct (core json false (x :: p)) as [[[ks s] t]|e0|]; cbn [bind].
  - intro H. destruct (slice_err _ _ _ _ H).
  - intro H; injection H as <-. split; [discriminate|reflexivity].
  - discriminate.
Qed.

Theorem get_errors json p e : Get json p = Err e -> lookup_error p e.
Proof. intro H. destruct (get_err _ _ _ H) as [Hp Hc]. exact (proj1 (core_err _ _ _ _ Hp Hc)). Qed.

(** ** Reads *)
Lemma not_two json : json <> b "[]" -> json <> b "{}" -> bytes_eqb json (b "[]") || bytes_eqb json (b "{}") = false.
Proof.
  intros H1 H2. destruct (bytes_eqb json (b "[]")) eqn:E; [apply bytes_eqb_eq in E; contradiction|].
  destruct (bytes_eqb json (b "{}")) eqn:E'; [apply bytes_eqb_eq in E'; contradiction|]. reflexivity.
Qed.

Theorem reads_fail F (ff : bytes -> option F) json p e : Get json p = Err e ->
  GetString json p = Err e /\ GetInt json p = Err e /\ GetBool json p = Err e /\ GetFloat ff json p = Err e /\
  GetStringArray json p = Err e /\ GetIntArray json p = Err e /\ GetBoolArray json p = Err e /\ GetFloatArray ff json p = Err e /\
  IsEmpty json p = Err e /\
  (json <> b "[]" -> json <> b "{}" -> Length json p = Err e /\ GetMap json p = Err e).
Proof.
  intro H. destruct (get_err _ _ _ H) as [Hp Hc].
  unfold GetInt, GetBool, GetFloat, GetStringArray, GetIntArray, GetBoolArray, GetFloatArray, GetString. rewrite H. cbn [bind].
  do 8 (split; [reflexivity|]). split.
  - unfold IsEmpty. destruct json as [|c json]; [|destruct p as [|x p]; [contradiction|]; rewrite Hc; reflexivity].
    cbn in Hc. injection Hc as <-. reflexivity.
  - intros H1 H2. unfold Length, GetMap. rewrite (not_two json H1 H2). unfold getStartEnd.
    destruct (length json <? 2)%nat eqn:El; cbn [bind]; [unfold core in Hc; rewrite El in Hc; injection Hc as <-; split; reflexivity|].
    destruct p as [|x p]; [contradiction|]. rewrite Hc. split; reflexivity.
Qed.

Theorem listings_fail (pf : bytes -> bool) json p e : Get json p = Err e -> early e = true ->
  IsObject json p = Err e /\ IsArray json p = Err e /\ IsValue json p = Err e /\ GetType pf json p = Err e /\
  (json <> b "{}" -> GetKeys json p = Err e /\ GetValues json p = Err e /\ GetKeysValues json p = Err e /\
     forall St (cb : St -> bytes -> bytes -> St * (bool * option err)) s, IterateKeyValue json cb p s = IDone s (Some e)) /\
  (length json <> 2%nat -> forall St (cb : St -> bytes -> St * (bool * option err)) s, IterateArray json cb p s = IDone s (Some e)).
Proof.
  intros H He. destruct (get_err _ _ _ H) as [Hp Hc]. pose proof (proj2 (core_err _ _ _ _ Hp Hc) He) as Ht.
  assert (Hl : (length json <? 2)%nat = false).
  { unfold core in Hc. destruct (length json <? 2)%nat; [|reflexivity]. injection Hc as <-. discriminate He. }
  assert (Hs : start_of json p = Err e) by (unfold start_of; destruct p; [contradiction|]; rewrite Ht; reflexivity).
  assert (Hj : exists c r, json = c :: r) by (destruct json as [|c r]; [discriminate Hl|eauto]). destruct Hj as (c & r & Ej).
  unfold IsObject, IsArray, IsValue, GetType, typeControlCore. rewrite Hs. rewrite Ej at 1 2 3 4. do 4 (split; [reflexivity|]). split.
  - intro H2. unfold GetKeys, GetValues, GetKeysValues, IterateKeyValue. rewrite Hs.
    destruct (bytes_eqb json (b "{}")) eqn:E; [apply bytes_eqb_eq in E; contradiction|]. repeat split; reflexivity.
  - intros H2 St cb s. unfold IterateArray. rewrite Hl.
    destruct (length json =? 2)%nat eqn:E; [apply Nat.eqb_eq in E; contradiction|].
    destruct p as [|x p]; [contradiction|]. rewrite Ht. reflexivity.
Qed.

(** ** Updates *)
Theorem updates_fail json p e : Get json p = Err e -> forall new key value index,
  Set_ json new p = Fail (Some json) e /\ Delete json p = Fail (Some json) e /\ Add_ json new p = Fail (Some json) e /\
  AddKeyValue json key value p = Fail (Some json) e /\ Insert json index new p = Fail (Some json) e.
Proof.
  intros H new key value index. destruct (get_err _ _ _ H) as [Hp Hc]. destruct p as [|x p]; [contradiction|].
  unfold Set_, Delete, Add_, AddKeyValue, Insert, target_span.
  destruct (length json <? 2)%nat eqn:El.
  - rewrite Hc. unfold core in Hc. rewrite El in Hc. injection Hc as <-. repeat split; reflexivity.
  - rewrite Hc. repeat split; reflexivity.
Qed.

Lemma found_code e p : lookup_error p e -> err_equal (Some e) 8 = not_found e.
Proof. intro H. destruct e; try contradiction; rewrite err_equal_spec; reflexivity. Qed.

Theorem store_fails json key value p e : Get json (p ++ [key]) = Err e ->
  Store json key value p = if not_found e then AddKeyValue json key value p else Fail (Some json) e.
Proof.
  intro H. destruct (get_err _ _ _ H) as [Hp Hc]. unfold Store. rewrite Hc.
  rewrite (found_code e _ (proj1 (core_err _ _ _ _ Hp Hc))). reflexivity.
Qed.

Theorem set_key_fails json k q x : k <> [] ->
  (forall v, Get json (q ++ [k]) = Ok v -> SetKey json k (q ++ [x]) = Fail (Some json) (EBadJSON 0)) /\
  (forall e, Get json (q ++ [k]) = Err e -> not_found e = false -> SetKey json k (q ++ [x]) = Fail (Some json) e) /\
  (forall e e', Get json (q ++ [k]) = Err e -> not_found e = true -> Get json (q ++ [x]) = Err e' -> SetKey json k (q ++ [x]) = Fail (Some json) e').
Proof.
  intro Hk.
  assert (U : SetKey json k (q ++ [x]) =
    match core json false (q ++ [k]) with
    | Panic => UPanic
    | Ok _ => Fail (Some json) (EBadJSON 0)
    | Err e =>
        if err_equal (Some e) 8 then
          ubind json (core json false (q ++ [x])) (fun '(ks, s, _) =>
          match ks with
          | None => UPanic
          | Some ks => pbind (setkey_loop (skipn ks json) ks s) (fun o => match o with Some i => done_replace json k ks i | None => Fail (Some json) (EBadJSON ks) end)
          end)
        else Fail (Some json) e
    end).
  { unfold SetKey. destruct k as [|c k]; [contradiction|]. rewrite removelast_last. destruct (q ++ [x]) eqn:E; [destruct q; discriminate E|].
    rewrite <- E. reflexivity. }
  rewrite U. split; [|split].
  - intros v H. destruct (core json false (q ++ [k])) as [a|e|] eqn:Hc; [reflexivity| |].
    + exfalso. unfold Get in H. rewrite Hc in H. destruct (q ++ [k]) eqn:E; [destruct q; discriminate E|discriminate H].
    + exfalso. unfold Get in H. rewrite Hc in H. destruct (q ++ [k]) eqn:E; [destruct q; discriminate E|discriminate H].
  - intros e H Hn. destruct (get_err _ _ _ H) as [Hp Hc]. rewrite Hc, (found_code e _ (proj1 (core_err _ _ _ _ Hp Hc))), Hn. reflexivity.
  - intros e e' H Hn H'. destruct (get_err _ _ _ H) as [Hp Hc]. rewrite Hc, (found_code e _ (proj1 (core_err _ _ _ _ Hp Hc))), Hn.
    destruct (get_err _ _ _ H') as [_ Hc']. rewrite Hc'. reflexivity.
Qed.

(** ** Calls that cannot mean anything *)
Theorem no_path json new k : k <> [] ->
  Set_ json new [] = Fail (Some json) ENullPath /\ Delete json [] = Fail (Some json) ENullPath /\ SetKey json k [] = Fail (Some json) ENullPath.
Proof. intro H. destruct k; [contradiction|]. repeat split; reflexivity. Qed.

Theorem no_key (pf : bytes -> bool) json p s z n flag :
  SetKey json [] p = Fail (Some json) ENullKey /\ AddKeyValueString pf json [] s p = Fail None ENullKey /\
  AddKeyValueInt json [] z p = Fail (Some json) ENullKey /\ AddKeyValueUint json [] n p = Fail (Some json) ENullKey /\
  AddKeyValueInt32 json [] z p = Fail (Some json) ENullKey /\ AddKeyValueInt64 json [] z p = Fail (Some json) ENullKey /\
  AddKeyValueUint32 json [] n p = Fail (Some json) ENullKey /\ AddKeyValueUint64 json [] n p = Fail (Some json) ENullKey /\
  AddKeyValueFloat json [] s p = Fail (Some json) ENullKey /\ AddKeyValueBool json [] flag p = Fail (Some json) ENullKey.
Proof. repeat split; reflexivity. Qed.

Theorem negative_index (pf : bytes -> bool) json p i s z n flag : (i < 0)%Z ->
  InsertString pf json i s p = Fail None EIndexOutOfRange /\
  InsertInt json i z p = Fail (Some json) EIndexOutOfRange /\ InsertUint json i n p = Fail (Some json) EIndexOutOfRange /\
  InsertInt32 json i z p = Fail (Some json) EIndexOutOfRange /\ InsertInt64 json i z p = Fail (Some json) EIndexOutOfRange /\
  InsertUint32 json i n p = Fail (Some json) EIndexOutOfRange /\ InsertUint64 json i n p = Fail (Some json) EIndexOutOfRange /\
  InsertFloat json i s p = Fail (Some json) EIndexOutOfRange /\ InsertBool json i flag p = Fail (Some json) EIndexOutOfRange.
Proof.
  intro H. apply Z.ltb_lt in H. unfold InsertString, InsertInt, InsertUint, InsertInt32, InsertInt64, InsertUint32, InsertUint64, InsertFloat, InsertBool, neg_index.
  rewrite H. repeat split; reflexivity.
Qed.

Theorem short_text json : (length json < 2)%nat -> forall p new key value,
  Add_ json new p = Fail (Some json) (EBadJSON 0) /\ AddKeyValue json key value p = Fail (Some json) (EBadJSON 0) /\
  (p <> [] -> Get json p = Err (EBadJSON 0)).
Proof.
  intros H p new key value. apply Nat.ltb_lt in H. unfold Add_, AddKeyValue. rewrite H. repeat split; try reflexivity.
  intro Hp. destruct p as [|k p]; [destruct (Hp eq_refl)|]. unfold Get, core. rewrite H. reflexivity.
Qed.
