(** A reference parser for documents, with proofs that it accepts exactly the texts of well-formed
    documents and that the text determines the content.  Independent of the model of the code; used
    to state examples on concrete texts. *)
From Coq Require Import String.
From Verif Require Import GoStd Json Spec Skip Focus CoreProofs.

Local Open Scope N_scope.

Fixpoint take_ws (s : bytes) : bytes * bytes :=
  match s with
  | c :: r => if is_ws c then let '(w, t) := take_ws r in (c :: w, t) else ([], s)
  | [] => ([], [])
  end.

Fixpoint take_token (s : bytes) : bytes * bytes :=
  match s with
  | c :: r => if is_token_char c then let '(w, t) := take_token r in (c :: w, t) else ([], s)
  | [] => ([], [])
  end.

(** After an opening quote: the raw text and what follows the closing quote. *)
Fixpoint take_str (s : bytes) : option (bytes * bytes) :=
  match s with
  | [] => None
  | c :: r =>
      if c =? 34 then Some ([], r)
      else if c =? 92 then
        match r with
        | [] => None
        | x :: r' => match take_str r' with Some (k, t) => Some (c :: x :: k, t) | None => None end
        end
      else match take_str r with Some (k, t) => Some (c :: k, t) | None => None end
  end.

Fixpoint parse_v (f : nat) (s : bytes) : option (jv * bytes) :=
  match f, s with
  | S f, c :: r =>
      if c =? 34 then match take_str r with Some (k, t) => Some (JString k, t) | None => None end
      else if c =? 91 then
        let '(w, t) := take_ws r in
        match t with
        | [] => None
        | x :: t' =>
            if x =? 93 then Some (JArr w [], t')
            else match parse_els f r with Some (els, t') => Some (JArr [] els, t') | None => None end
        end
      else if c =? 123 then
        let '(w, t) := take_ws r in
        match t with
        | [] => None
        | x :: t' =>
            if x =? 125 then Some (JObj w [], t')
            else match parse_mems f r with Some (ms, t') => Some (JObj [] ms, t') | None => None end
        end
      else let '(k, t) := take_token s in
           match k with [] => None | _ => Some (JScalar k, t) end
  | _, _ => None
  end
with parse_els (f : nat) (s : bytes) : option (list (elem jv) * bytes) :=
  match f with
  | O => None
  | S f =>
      let '(w1, s1) := take_ws s in
      match parse_v f s1 with
      | None => None
      | Some (v, s2) =>
          let '(w2, s3) := take_ws s2 in
          match s3 with
          | [] => None
          | x :: s4 =>
              if x =? 44 then match parse_els f s4 with
                              | Some (els, t) => Some (Elem w1 v w2 :: els, t)
                              | None => None
                              end
              else if x =? 93 then Some ([Elem w1 v w2], s4)
              else None
          end
      end
  end
with parse_mems (f : nat) (s : bytes) : option (list (mem jv) * bytes) :=
  match f with
  | O => None
  | S f =>
      let '(w1, s1) := take_ws s in
      match s1 with
      | [] => None
      | q :: r =>
      if q =? 34 then
        match take_str r with
        | None => None
        | Some (k, s2) =>
            let '(w2, s3) := take_ws s2 in
            match s3 with
            | [] => None
            | y :: s4 =>
            if y =? 58 then
              let '(w3, s5) := take_ws s4 in
              match parse_v f s5 with
              | None => None
              | Some (v, s6) =>
                  let '(w4, s7) := take_ws s6 in
                  match s7 with
                  | [] => None
                  | x :: s8 =>
                      if x =? 44 then match parse_mems f s8 with
                                      | Some (ms, t) => Some (Mem w1 k w2 w3 v w4 :: ms, t)
                                      | None => None
                                      end
                      else if x =? 125 then Some ([Mem w1 k w2 w3 v w4], s8)
                      else None
                  end
              end
            else None
            end
        end
      else None
      end
  end.

Definition parse_doc (s : bytes) : option doc :=
  let '(w1, s1) := take_ws s in
  match parse_v (S (2 * length s)) s1 with
  | None => None
  | Some (v, s2) =>
      let '(w2, s3) := take_ws s2 in
      match s3 with [] => Some (Doc w1 v w2) | _ => None end
  end.

(** ** Soundness *)
Lemma take_ws_sound s w t : take_ws s = (w, t) -> s = w ++ t /\ ws_ok w = true.
Proof.
  revert w t. induction s as [|c r IH]; intros w t H; cbn in H.
  - injection H as <- <-. auto.
  - destruct (is_ws c) eqn:E.
    + destruct (take_ws r) as [w' t']. injection H as <- <-. destruct (IH _ _ eq_refl) as [-> Hw].
      split; [reflexivity|]. cbn. rewrite E. exact Hw.
    + injection H as <- <-. auto.
Qed.

Lemma take_token_sound s w t : take_token s = (w, t) -> s = w ++ t /\ forallb is_token_char w = true.
Proof.
  revert w t. induction s as [|c r IH]; intros w t H; cbn in H.
  - injection H as <- <-. auto.
  - destruct (is_token_char c) eqn:E.
    + destruct (take_token r) as [w' t']. injection H as <- <-. destruct (IH _ _ eq_refl) as [-> Hw].
      split; [reflexivity|]. cbn. rewrite E. exact Hw.
    + injection H as <- <-. auto.
Qed.

Lemma take_str_sound s k t : take_str s = Some (k, t) -> s = k ++ 34 :: t /\ str_ok k = true.
Proof.
  revert k t. remember (length s) as n eqn:Hn. assert (Hle : (length s <= n)%nat) by lia. clear Hn.
  revert s Hle. induction n as [|n IH]; intros s Hle k t H; (destruct s as [|c r]; [discriminate|]); cbn [length] in Hle; [lia|].
  cbn [take_str] in H. destruct (c =? 34) eqn:E1.
  - injection H as <- <-. apply N.eqb_eq in E1. subst. auto.
  - destruct (c =? 92) eqn:E2.
    + destruct r as [|x r']; [discriminate|]. destruct (take_str r') as [[k' t']|] eqn:E; [|discriminate].
      injection H as <- <-. cbn [length] in Hle. destruct (IH r' ltac:(lia) _ _ E) as [-> Hk].
      split; [reflexivity|]. cbn [str_ok]. rewrite E1, E2. exact Hk.
    + destruct (take_str r) as [[k' t']|] eqn:E; [|discriminate].
      injection H as <- <-. destruct (IH r ltac:(lia) _ _ E) as [-> Hk].
      split; [reflexivity|]. cbn [str_ok]. rewrite E1, E2. exact Hk.
Qed.

Lemma parse_sound f :
  (forall s v t, parse_v f s = Some (v, t) -> s = render v ++ t /\ wf v = true) /\
  (forall s els t, parse_els f s = Some (els, t) ->
     s = join (map elem_text els) ++ 93 :: t /\ forallb elem_ok els = true) /\
  (forall s ms t, parse_mems f s = Some (ms, t) ->
     s = join (map mem_text ms) ++ 125 :: t /\ forallb mem_ok ms = true).
Proof.
  induction f as [|f (IHv & IHe & IHm)]; [repeat split; discriminate|]. split; [|split].
  - intros s v t H. cbn [parse_v] in H. destruct s as [|c r]; [discriminate|].
    destruct (N.eqb_spec c 34) as [-> |N1].
    { destruct (take_str r) as [[k t']|] eqn:E; [|discriminate]. injection H as <- <-.
      apply take_str_sound in E. destruct E as [-> Hk]. split; [cbn [render]; same_text|exact Hk]. }
    destruct (N.eqb_spec c 91) as [-> |N2].
    { destruct (take_ws r) as [w u] eqn:E. destruct u as [|x u]; [discriminate|].
      destruct (N.eqb_spec x 93) as [-> |N3].
      - injection H as <- <-. apply take_ws_sound in E. destruct E as [-> Hw]. split; [cbn [render map join]; same_text|].
        rewrite wf_arr. rewrite Hw. reflexivity.
      - destruct (parse_els f r) as [[els t']|] eqn:E2; [|discriminate]. injection H as <- <-.
        apply IHe in E2. destruct E2 as [-> He]. split; [rewrite render_arr; same_text|].
        rewrite wf_arr, He. reflexivity. }
    destruct (N.eqb_spec c 123) as [-> |N3].
    { destruct (take_ws r) as [w u] eqn:E. destruct u as [|x u]; [discriminate|].
      destruct (N.eqb_spec x 125) as [-> |N4].
      - injection H as <- <-. apply take_ws_sound in E. destruct E as [-> Hw]. split; [cbn [render map join]; same_text|].
        rewrite wf_obj. rewrite Hw. reflexivity.
      - destruct (parse_mems f r) as [[ms t']|] eqn:E2; [|discriminate]. injection H as <- <-.
        apply IHm in E2. destruct E2 as [-> He]. split; [rewrite render_obj; same_text|].
        rewrite wf_obj, He. reflexivity. }
    destruct (take_token (c :: r)) as [k u] eqn:E. destruct k as [|x k]; [discriminate|]. injection H as <- <-.
    apply take_token_sound in E. destruct E as [-> Hk]. split; [reflexivity|]. exact Hk.
  - intros s els t H. cbn [parse_els] in H. destruct (take_ws s) as [w1 s1] eqn:E1.
    destruct (parse_v f s1) as [[v s2]|] eqn:Ev; [|discriminate]. destruct (take_ws s2) as [w2 s3] eqn:E2.
    destruct s3 as [|x s4]; [discriminate|].
    apply take_ws_sound in E1, E2. destruct E1 as [-> Hw1], E2 as [-> Hw2]. apply IHv in Ev. destruct Ev as [-> Hv].
    assert (Hok : elem_ok (Elem w1 v w2) = true) by (unfold elem_ok; cbn [e_pre e_val e_post]; rewrite Hw1, Hv, Hw2; reflexivity).
    destruct (N.eqb_spec x 44) as [-> |N1].
    + destruct (parse_els f s4) as [[els' t']|] eqn:E3; [|discriminate]. injection H as <- <-.
      destruct els' as [|e' els'].
      { exfalso. clear -E3. destruct f; [discriminate|]. cbn [parse_els] in E3.
        repeat match type of E3 with context [match ?x with _ => _ end] => destruct x; try discriminate end. }
      apply IHe in E3. destruct E3 as [-> He]. cbn [forallb] in *. rewrite Hok, He. split; [|reflexivity].
      cbn [map]. rewrite !join_cons, jpost_cons. unfold elem_text at 3. cbn [e_pre e_val e_post]. same_text.
    + destruct (N.eqb_spec x 93) as [-> |N2]; [|discriminate]. injection H as <- <-. cbn [forallb]. rewrite Hok.
      split; [|reflexivity]. cbn [map join]. unfold elem_text. cbn [e_pre e_val e_post]. same_text.
  - intros s ms t H. cbn [parse_mems] in H. destruct (take_ws s) as [w1 s1] eqn:E1.
    destruct s1 as [|q r]; [discriminate|]. destruct (N.eqb_spec q 34) as [-> |N0]; [|discriminate].
    destruct (take_str r) as [[k s2]|] eqn:Ek; [|discriminate]. destruct (take_ws s2) as [w2 s3] eqn:E2.
    destruct s3 as [|y s4]; [discriminate|]. destruct (N.eqb_spec y 58) as [-> |N1]; [|discriminate].
    destruct (take_ws s4) as [w3 s5] eqn:E3.
    destruct (parse_v f s5) as [[v s6]|] eqn:Ev; [|discriminate]. destruct (take_ws s6) as [w4 s7] eqn:E4.
    destruct s7 as [|x s8]; [discriminate|].
    apply take_ws_sound in E1, E2, E3, E4. destruct E1 as [-> Hw1], E2 as [-> Hw2], E3 as [-> Hw3], E4 as [-> Hw4].
    apply IHv in Ev. destruct Ev as [-> Hv]. apply take_str_sound in Ek. destruct Ek as [-> Hk].
    assert (Hok : mem_ok (Mem w1 k w2 w3 v w4) = true).
    { unfold mem_ok; cbn [m_pre m_key m_mid m_mid2 m_val m_post]. rewrite Hw1, Hk, Hw2, Hw3, Hv, Hw4. reflexivity. }
    destruct (N.eqb_spec x 44) as [-> |N2].
    + destruct (parse_mems f s8) as [[ms' t']|] eqn:E5; [|discriminate]. injection H as <- <-.
      destruct ms' as [|m' ms'].
      { exfalso. clear -E5. destruct f; [discriminate|]. cbn [parse_mems] in E5.
        repeat match type of E5 with context [match ?x with _ => _ end] => destruct x; try discriminate end. }
      apply IHm in E5. destruct E5 as [-> He]. cbn [forallb] in *. rewrite Hok, He. split; [|reflexivity].
      cbn [map]. rewrite !join_cons, jpost_cons. unfold mem_text at 3. cbn [m_pre m_key m_mid m_mid2 m_val m_post]. same_text.
    + destruct (N.eqb_spec x 125) as [-> |N3]; [|discriminate]. injection H as <- <-. cbn [forallb]. rewrite Hok.
      split; [|reflexivity]. cbn [map join]. unfold mem_text. cbn [m_pre m_key m_mid m_mid2 m_val m_post]. same_text.
Qed.

Theorem parse_doc_sound s d : parse_doc s = Some d -> text d = s /\ wf_doc d = true.
Proof.
  unfold parse_doc. destruct (take_ws s) as [w1 s1] eqn:E1. destruct (parse_v _ s1) as [[v s2]|] eqn:Ev; [|discriminate].
  destruct (take_ws s2) as [w2 s3] eqn:E2. destruct s3; [|discriminate]. intro H. injection H as <-.
  apply take_ws_sound in E1, E2. destruct E1 as [-> Hw1], E2 as [-> Hw2]. apply parse_sound in Ev. destruct Ev as [-> Hv].
  unfold text, wf_doc. cbn [d_pre d_val d_post]. rewrite Hw1, Hv, Hw2. rewrite app_nil_r. auto.
Qed.

(** ** Completeness *)
Definition stops_ws (t : bytes) : Prop := match t with [] => True | c :: _ => is_ws c = false end.
Definition stops_token (t : bytes) : Prop := match t with [] => True | c :: _ => is_token_char c = false end.

Lemma take_ws_complete w t : ws_ok w = true -> stops_ws t -> take_ws (w ++ t) = (w, t).
Proof.
  intros Hw Ht. induction w as [|c w IH]; cbn [app take_ws].
  - destruct t as [|c t]; [reflexivity|]. cbn in Ht. cbn [take_ws]. rewrite Ht. reflexivity.
  - cbn [ws_ok forallb] in Hw. apply andb_true_iff in Hw. destruct Hw as [Hc Hw]. rewrite Hc, (IH Hw). reflexivity.
Qed.

Lemma take_token_complete k t : forallb is_token_char k = true -> stops_token t -> take_token (k ++ t) = (k, t).
Proof.
  intros Hw Ht. induction k as [|c w IH]; cbn [app take_token].
  - destruct t as [|c t]; [reflexivity|]. cbn in Ht. cbn [take_token]. rewrite Ht. reflexivity.
  - cbn [forallb] in Hw. apply andb_true_iff in Hw. destruct Hw as [Hc Hw]. rewrite Hc, (IH Hw). reflexivity.
Qed.

Lemma str_ind (P : bytes -> Prop) :
  P [] -> (forall c r, c <> 34 -> c <> 92 -> str_ok r = true -> P r -> P (c :: r)) ->
  (forall x r, str_ok r = true -> P r -> P (92 :: x :: r)) -> forall s, str_ok s = true -> P s.
Proof.
  intros H0 H1 H2 s. remember (length s) as n eqn:Hn. assert (Hle : (length s <= n)%nat) by lia. clear Hn.
  revert s Hle. induction n as [|n IH]; intros s Hle Hs.
  - destruct s; [exact H0|cbn in Hle; lia].
  - destruct s as [|c s]; [exact H0|]. cbn [str_ok] in Hs. cbn [length] in Hle.
    destruct (c =? 34) eqn:E1; [discriminate|]. destruct (c =? 92) eqn:E2.
    + apply N.eqb_eq in E2. subst c. destruct s as [|x r]; [discriminate|]. cbn [length] in Hle.
      apply H2; [exact Hs|]. apply IH; [lia|exact Hs].
    + nbool. apply H1; try assumption. apply IH; [lia|exact Hs].
Qed.

Lemma take_str_complete k : str_ok k = true -> forall t, take_str (k ++ 34 :: t) = Some (k, t).
Proof.
  revert k. apply (str_ind (fun k => forall t, take_str (k ++ 34 :: t) = Some (k, t))).
  - reflexivity.
  - intros c r H1 H2 _ IH t. cbn [app take_str]. apply N.eqb_neq in H1, H2. rewrite H1, H2, IH. reflexivity.
  - intros x r _ IH t. cbn [app take_str N.eqb Pos.eqb]. rewrite IH. reflexivity.
Qed.

Lemma token_first s : scalar_ok s = true -> exists c r, s = c :: r /\ is_ws c = false /\
  c <> 34 /\ c <> 91 /\ c <> 123 /\ c <> 93 /\ c <> 125 /\ is_token_char c = true.
Proof.
  unfold scalar_ok. destruct s as [|c r]; [discriminate|]. intro H. exists c, r. split; [reflexivity|].
  cbn [forallb] in H. apply andb_true_iff in H. destruct H as [H _]. pose proof H as H'. unfold is_token_char in H.
  rewrite negb_true_iff, !orb_false_iff in H. repeat match goal with H : _ /\ _ |- _ => destruct H end. nbool. tauto.
Qed.

Lemma value_first v : wf v = true -> exists c r, render v = c :: r /\ is_ws c = false /\ c <> 93 /\ c <> 125.
Proof.
  destruct v; intro H; cbn [render].
  - destruct (token_first s H) as (c & r & -> & H1 & H2 & H3 & H4 & H5 & H6 & _). eauto 10.
  - eexists _, _. split; [reflexivity|]. split; [reflexivity|]. split; discriminate.
  - eexists _, _. split; [reflexivity|]. split; [reflexivity|]. split; discriminate.
  - eexists _, _. split; [reflexivity|]. split; [reflexivity|]. split; discriminate.
Qed.

Lemma value_stops v t : wf v = true -> stops_ws (render v ++ t).
Proof. intro H. destruct (value_first v H) as (c & r & -> & Hc & _). exact Hc. Qed.

Lemma ws_not_token c : is_ws c = true -> is_token_char c = false.
Proof. unfold is_token_char. intros ->. reflexivity. Qed.

Lemma ws_then_stops w c t : ws_ok w = true -> is_token_char c = false -> stops_token (w ++ c :: t).
Proof.
  destruct w as [|x w]; cbn; [auto|]. intros H _. apply andb_true_iff in H. apply ws_not_token. tauto.
Qed.

Definition parses (v : jv) : Prop := wf v = true -> forall f t, (2 * length (render v) <= f)%nat -> stops_token t ->
  exists v', parse_v f (render v ++ t) = Some (v', t) /\ content v' = content v.

Lemma parse_els_complete l : l <> [] -> Forall (fun e => parses (e_val e)) l -> forallb elem_ok l = true ->
  forall W f t, ws_ok W = true -> (2 * length (join (map elem_text l)) + 1 <= f)%nat ->
  exists l', parse_els f (W ++ join (map elem_text l) ++ 93 :: t) = Some (l', t) /\
    map (fun e => content (e_val e)) l' = map (fun e => content (e_val e)) l.
Proof.
  induction l as [|e l IH]; [congruence|]. intros _ HF Hok W f t HW Hf. inversion HF as [|? ? He HF']; subst.
  cbn [forallb] in Hok. apply andb_true_iff in Hok. destruct Hok as [Hoke Hok].
  assert (Hoke' := Hoke). unfold elem_ok in Hoke. nbool.
  destruct f as [|f]; [lia|]. cbn [map] in *. rewrite join_cons in *. unfold elem_text at 1 in Hf. rewrite !app_length in Hf.
  assert (Hv0 : (length (render (e_val e)) > 0)%nat) by (destruct (value_first (e_val e)) as (? & ? & -> & _); [assumption|cbn; lia]).
  unfold elem_text at 1. cbn [parse_els].
  replace (W ++ ((e_pre e ++ render (e_val e) ++ e_post e) ++ jpost (map elem_text l)) ++ 93 :: t)
    with ((W ++ e_pre e) ++ render (e_val e) ++ e_post e ++ jpost (map elem_text l) ++ 93 :: t) by same_text.
  rewrite take_ws_complete; [|rewrite ws_ok_app; apply andb_true_iff; split; assumption|apply value_stops; assumption].
  destruct l as [|e2 l].
  - change (jpost (map elem_text [])) with (@nil N) in *. cbn [app] in *.
    destruct (He ltac:(assumption) f (e_post e ++ 93 :: t)) as (v' & Hp & Hc); [cbn [length] in Hf; lia|apply ws_then_stops; [assumption|reflexivity]|].
    rewrite Hp. rewrite take_ws_complete by (try assumption; reflexivity). cbn [N.eqb Pos.eqb].
    eexists. split; [reflexivity|]. cbn [map e_val]. rewrite Hc. reflexivity.
  - cbn [map] in *. rewrite jpost_cons in *. cbn [app length] in *. rewrite app_length in Hf.
    destruct (He ltac:(assumption) f (e_post e ++ 44 :: (elem_text e2 ++ jpost (map elem_text l)) ++ 93 :: t)) as (v' & Hp & Hc); [cbn [length] in Hf; lia|apply ws_then_stops; [assumption|reflexivity]|].
    rewrite Hp. rewrite take_ws_complete by (try assumption; reflexivity). cbn [N.eqb Pos.eqb].
    destruct (IH ltac:(discriminate) HF' Hok [] f t eq_refl) as (l' & Hl & Hm); [rewrite join_cons, app_length; lia|].
    rewrite join_cons in Hl. cbn [app] in Hl. rewrite Hl. eexists. split; [reflexivity|]. cbn [map e_val]. rewrite Hc, Hm. reflexivity.
Qed.

Lemma parse_mems_complete l : l <> [] -> Forall (fun m => parses (m_val m)) l -> forallb mem_ok l = true ->
  forall W f t, ws_ok W = true -> (2 * length (join (map mem_text l)) + 1 <= f)%nat ->
  exists l', parse_mems f (W ++ join (map mem_text l) ++ 125 :: t) = Some (l', t) /\
    map (fun m => (m_key m, content (m_val m))) l' = map (fun m => (m_key m, content (m_val m))) l.
Proof.
  induction l as [|e l IH]; [congruence|]. intros _ HF Hok W f t HW Hf. inversion HF as [|? ? He HF']; subst.
  cbn [forallb] in Hok. apply andb_true_iff in Hok. destruct Hok as [Hoke Hok].
  assert (Hoke' := Hoke). unfold mem_ok in Hoke. nbool.
  destruct f as [|f]; [lia|]. cbn [map] in *. rewrite join_cons in *. unfold mem_text at 1 in Hf.
  repeat (rewrite !app_length in Hf; cbn [length] in Hf).
  unfold mem_text at 1. cbn [parse_mems].
  replace (W ++ ((m_pre e ++ 34 :: m_key e ++ 34 :: m_mid e ++ 58 :: m_mid2 e ++ render (m_val e) ++ m_post e) ++ jpost (map mem_text l)) ++ 125 :: t)
    with ((W ++ m_pre e) ++ 34 :: m_key e ++ 34 :: m_mid e ++ 58 :: m_mid2 e ++ render (m_val e) ++ m_post e ++ jpost (map mem_text l) ++ 125 :: t) by same_text.
  rewrite take_ws_complete; [|rewrite ws_ok_app; apply andb_true_iff; split; assumption|reflexivity].
  cbn [N.eqb Pos.eqb]. rewrite take_str_complete by assumption.
  rewrite take_ws_complete by (try assumption; reflexivity). cbn [N.eqb Pos.eqb].
  rewrite take_ws_complete by (try assumption; apply value_stops; assumption).
  destruct l as [|e2 l].
  - change (jpost (map mem_text [])) with (@nil N) in *. cbn [app] in *.
    destruct (He ltac:(assumption) f (m_post e ++ 125 :: t)) as (v' & Hp & Hc); [cbn [length] in Hf; lia|apply ws_then_stops; [assumption|reflexivity]|].
    rewrite Hp. rewrite take_ws_complete by (try assumption; reflexivity). cbn [N.eqb Pos.eqb].
    eexists. split; [reflexivity|]. cbn [map m_key m_val]. rewrite Hc. reflexivity.
  - cbn [map] in *. rewrite jpost_cons in *. cbn [app length] in *. rewrite app_length in Hf.
    destruct (He ltac:(assumption) f (m_post e ++ 44 :: (mem_text e2 ++ jpost (map mem_text l)) ++ 125 :: t)) as (v' & Hp & Hc); [cbn [length] in Hf; lia|apply ws_then_stops; [assumption|reflexivity]|].
    rewrite Hp. rewrite take_ws_complete by (try assumption; reflexivity). cbn [N.eqb Pos.eqb].
    destruct (IH ltac:(discriminate) HF' Hok [] f t eq_refl) as (l' & Hl & Hm); [rewrite join_cons, app_length; lia|].
    rewrite join_cons in Hl. cbn [app] in Hl. rewrite Hl. eexists. split; [reflexivity|]. cbn [map m_key m_val]. rewrite Hc, Hm. reflexivity.
Qed.

Lemma parse_v_complete v : parses v.
Proof.
  induction v as [s|s|w els IH|w ms IH] using jv_ind'; intros Hw f t Hf Ht.
  - cbn [wf] in Hw. destruct (token_first s Hw) as (c & r & -> & H1 & H2 & H3 & H4 & _ & _ & H5).
    cbn [render length] in *. destruct f as [|f]; [lia|]. cbn [app parse_v].
    apply N.eqb_neq in H2, H3, H4. rewrite H2, H3, H4.
    change (c :: r ++ t) with ((c :: r) ++ t). rewrite take_token_complete by assumption. eexists. split; reflexivity.
  - cbn [render length] in Hf. destruct f as [|f]; [lia|]. cbn [render app parse_v N.eqb Pos.eqb].
    rewrite <- app_assoc. cbn [app]. rewrite take_str_complete by exact Hw. eexists. split; reflexivity.
  - rewrite wf_arr in Hw. apply andb_true_iff in Hw. destruct Hw as [Hw Hok]. rewrite render_arr in *.
    cbn [length] in Hf. rewrite !app_length in Hf. cbn [length] in Hf. destruct f as [|f]; [lia|].
    cbn [app parse_v N.eqb Pos.eqb]. rewrite <- !app_assoc. cbn [app].
    destruct els as [|e l].
    + cbn [map join app]. rewrite take_ws_complete by (try assumption; reflexivity). cbn [N.eqb Pos.eqb].
      eexists. split; reflexivity.
    + destruct (parse_els_complete (e :: l) ltac:(discriminate) IH Hok w f t Hw ltac:(lia)) as (l' & Hl & Hm).
      cbn [map] in Hl |- *. rewrite Hl. clear Hl.
      assert (E : exists c r, join (elem_text e :: map elem_text l) ++ 93 :: t = e_pre e ++ c :: r /\ is_ws c = false /\ c <> 93).
      { cbn [forallb] in Hok. apply andb_true_iff in Hok. destruct Hok as [Hoke _]. unfold elem_ok in Hoke. nbool.
        destruct (value_first (e_val e)) as (c & r & Hr & Hc & H93 & _); [assumption|].
        rewrite join_cons. unfold elem_text. rewrite Hr. exists c. eexists. split; [lassoc; reflexivity|]. auto. }
      destruct E as (c & r & -> & Hc & H93). rewrite app_assoc.
      rewrite take_ws_complete; [| |exact Hc].
      2:{ rewrite ws_ok_app, Hw. cbn [forallb] in Hok. apply andb_true_iff in Hok. destruct Hok as [Hoke _]. unfold elem_ok in Hoke. nbool. assumption. }
      apply N.eqb_neq in H93. rewrite H93. eexists. split; [reflexivity|]. cbn [content]. rewrite Hm. reflexivity.
  - rewrite wf_obj in Hw. apply andb_true_iff in Hw. destruct Hw as [Hw Hok]. rewrite render_obj in *.
    cbn [length] in Hf. rewrite !app_length in Hf. cbn [length] in Hf. destruct f as [|f]; [lia|].
    cbn [app parse_v N.eqb Pos.eqb]. rewrite <- !app_assoc. cbn [app].
    destruct ms as [|m l].
    + cbn [map join app]. rewrite take_ws_complete by (try assumption; reflexivity). cbn [N.eqb Pos.eqb].
      eexists. split; reflexivity.
    + destruct (parse_mems_complete (m :: l) ltac:(discriminate) IH Hok w f t Hw ltac:(lia)) as (l' & Hl & Hm).
      cbn [map] in Hl |- *. rewrite Hl. clear Hl.
      assert (E : exists r, join (mem_text m :: map mem_text l) ++ 125 :: t = m_pre m ++ 34 :: r).
      { rewrite join_cons. unfold mem_text. eexists. lassoc; reflexivity. }
      destruct E as (r & ->). rewrite app_assoc.
      rewrite take_ws_complete; [| |reflexivity].
      2:{ rewrite ws_ok_app, Hw. cbn [forallb] in Hok. apply andb_true_iff in Hok. destruct Hok as [Hoke _]. unfold mem_ok in Hoke. nbool. assumption. }
      cbn [N.eqb Pos.eqb]. eexists. split; [reflexivity|]. cbn [content]. rewrite Hm. reflexivity.
Qed.

Lemma ws_stops_token w : ws_ok w = true -> stops_token w.
Proof. destruct w; cbn; [auto|]. intro H. apply andb_true_iff in H. apply ws_not_token. tauto. Qed.

Theorem parse_doc_complete d : wf_doc d = true ->
  exists d', parse_doc (text d) = Some d' /\ content (d_val d') = content (d_val d).
Proof.
  intro H. unfold wf_doc in H. nbool. unfold parse_doc, text.
  rewrite take_ws_complete by (try assumption; apply value_stops; assumption).
  destruct (parse_v_complete (d_val d) ltac:(assumption) (S (2 * length (d_pre d ++ render (d_val d) ++ d_post d))) (d_post d))
    as (v' & Hp & Hc); [rewrite !app_length; lia|apply ws_stops_token; assumption|].
  rewrite Hp. pose proof (take_ws_complete (d_post d) []) as E. rewrite app_nil_r in E.
  rewrite E by (try assumption; exact I).
  eexists. split; [reflexivity|]. exact Hc.
Qed.

(** The text of a document determines its content. *)
Theorem content_unique d1 d2 : wf_doc d1 = true -> wf_doc d2 = true -> text d1 = text d2 ->
  content (d_val d1) = content (d_val d2).
Proof.
  intros H1 H2 E. destruct (parse_doc_complete _ H1) as (e1 & P1 & <-), (parse_doc_complete _ H2) as (e2 & P2 & <-).
  rewrite E in P1. congruence.
Qed.

(** The document a text stands for, for examples on concrete texts. *)
Definition doc_of (s : bytes) : doc :=
  match parse_doc s with Some d => d | None => Doc [] (JScalar []) [] end.

(** Every path of a tree (for examples); repeated keys give repeated paths. *)
Fixpoint all_paths (v : jv) : list (list bytes) :=
  [] :: match v with
        | JArr _ els => concat (map (fun '(i, ps) => map (cons (itoa (Z.of_nat i))) ps)
                                    (combine (seq 0 (length els)) (map (fun e => all_paths (e_val e)) els)))
        | JObj _ ms => concat (map (fun m => map (cons (m_key m)) (all_paths (m_val m))) ms)
        | _ => []
        end.
