(** Flatten and Indent against the trees. *)
From Coq Require Import String.
From Verif Require Import GoStd Json SpecFormat Core Skip Focus CoreProofs Format.

Local Open Scope N_scope.

(** ** Flatten on arbitrary bytes *)
Lemma len_ind (P : bytes -> Prop) : (forall s, (forall t, (length t < length s)%nat -> P t) -> P s) -> forall s, P s.
Proof.
  intros H s. assert (G : forall n t, (length t <= n)%nat -> P t).
  { induction n as [|n IH]; intros t Ht; apply H; intros u Hu; [lia|]. apply IH. lia. }
  exact (G _ s (le_n _)).
Qed.

Lemma flatten_idem s : forall q, flatten (flatten s q) q = flatten s q.
Proof.
  induction s as [s IH] using len_ind. intro q. destruct s as [|c r]; [reflexivity|]. cbn [flatten].
  destruct (c =? 92) eqn:E1.
  - destruct r as [|d r]; cbn [flatten]; rewrite E1; [reflexivity|]. rewrite IH by (cbn; lia). reflexivity.
  - destruct (c =? 34) eqn:E2.
    + cbn [flatten]. rewrite E1, E2. rewrite IH by (cbn; lia). reflexivity.
    + destruct q.
      * cbn [flatten]. rewrite E1, E2, IH by (cbn; lia). reflexivity.
      * destruct (space c) eqn:E3; [apply IH; cbn; lia|].
        cbn [flatten]. rewrite E1, E2, E3, IH by (cbn; lia). reflexivity.
Qed.

Lemma flatten_len s : forall q, (length (flatten s q) <= length s)%nat.
Proof.
  induction s as [s IH] using len_ind. intro q. destruct s as [|c r]; [reflexivity|]. cbn [flatten].
  destruct (c =? 92); [destruct r as [|d r]; cbn [length]; [lia|specialize (IH r); cbn in IH; specialize (IH ltac:(lia) q); lia]|].
  pose proof (fun q => IH r ltac:(cbn; lia) q) as I.
  destruct (c =? 34); [cbn; specialize (I (negb q)); lia|]. destruct q; [cbn; specialize (I true); lia|].
  destruct (space c); cbn; specialize (I false); lia.
Qed.

Lemma flatten_keeps s : forall q, filter (fun c => negb (is_ws c)) (flatten s q) = filter (fun c => negb (is_ws c)) s.
Proof.
  induction s as [s IH] using len_ind. intro q. destruct s as [|c r]; [reflexivity|]. cbn [flatten].
  destruct (c =? 92); [destruct r as [|d r]; [reflexivity|]; cbn [filter]; rewrite IH by (cbn; lia); reflexivity|].
  destruct (c =? 34); [cbn [filter]; rewrite IH by (cbn; lia); reflexivity|].
  destruct q; [cbn [filter]; rewrite IH by (cbn; lia); reflexivity|].
  destruct (space c) eqn:E; cbn [filter]; rewrite IH by (cbn; lia); [|reflexivity].
  change (is_ws c) with (space c). rewrite E. reflexivity.
Qed.

(** ** Flatten on documents *)
Definition flat (s t : bytes) : Prop := forall post, flatten (s ++ post) false = t ++ flatten post false.

Lemma flat_nil : flat [] []. Proof. intro. reflexivity. Qed.
Lemma flat_app s t s' t' : flat s t -> flat s' t' -> flat (s ++ s') (t ++ t').
Proof. intros H1 H2 post. rewrite <- !app_assoc, H1, H2. reflexivity. Qed.
Lemma flat_cons c s t : c <> 92 -> c <> 34 -> is_ws c = false -> flat s t -> flat (c :: s) (c :: t).
Proof.
  intros H1 H2 H3 H post. cbn [app flatten]. rewrite !eqb_false by assumption.
  change (space c) with (is_ws c). rewrite H3, H. reflexivity.
Qed.
Lemma flat_ws w : ws_ok w = true -> flat w [].
Proof.
  intro H. apply ws_ok_Forall in H. induction H as [|c w Hc _ IH]; [apply flat_nil|].
  intro post. cbn [app flatten]. pose proof (ws_plain c Hc) as [Hp Hb]. apply plain_neq in Hp. rewrite !eqb_false by tauto.
  change (space c) with (is_ws c). rewrite Hc. apply IH.
Qed.
Lemma flatten_in s : str_ok s = true -> forall post, flatten (s ++ post) true = s ++ flatten post true.
Proof.
  induction s as [s IH] using len_ind. intros H post. destruct s as [|c r]; [reflexivity|]. cbn [str_ok] in H. cbn [app flatten].
  destruct (c =? 34) eqn:E1; [discriminate|]. destruct (c =? 92) eqn:E2.
  - destruct r as [|d r]; [discriminate|]. cbn [app]. rewrite IH by (try assumption; cbn; lia). reflexivity.
  - rewrite IH by (try assumption; cbn; lia). reflexivity.
Qed.
Lemma flat_string s : str_ok s = true -> flat (34 :: s ++ [34]) (34 :: s ++ [34]).
Proof.
  intros H post. cbn [app flatten]. change (34 =? 92) with false. change (34 =? 34) with true. cbn [negb].
  rewrite <- app_assoc, flatten_in by exact H. cbn [app flatten]. change (34 =? 92) with false. change (34 =? 34) with true.
  cbn [negb]. rewrite <- app_assoc. reflexivity.
Qed.
Lemma flat_scalar s : scalar_ok s = true -> flat s s.
Proof.
  intro H. apply scalar_ok_inv in H. destruct H as [_ H]. induction H as [|c s Hc _ IH]; [apply flat_nil|].
  apply token_plain in Hc. destruct Hc as (H1 & H2 & H3). apply plain_neq in H1. apply flat_cons; tauto.
Qed.
Lemma flat_join xs ys : Forall2 flat xs ys -> flat (join xs) (join ys).
Proof.
  intro H. induction H as [|x y l l' Hx Hl IH]; [apply flat_nil|].
  destruct Hl as [|x2 y2 l l' Hx2 Hl]; [exact Hx|].
  change (flat (x ++ 44 :: join (x2 :: l)) (y ++ 44 :: join (y2 :: l'))).
  apply flat_app; [exact Hx|]. apply flat_cons; try discriminate; [reflexivity|exact IH].
Qed.

Lemma flat_value v : wf v = true -> flat (render v) (render (strip v)).
Proof.
  induction v as [s|s|w els IH|w ms IH] using jv_ind'; intro Hw; cbn [wf strip] in *.
  - apply flat_scalar. exact Hw.
  - apply flat_string. exact Hw.
  - nbool. cbn [render]. apply flat_cons; try discriminate; [reflexivity|].
    apply flat_app; [apply flat_ws; assumption|]. apply flat_app; [|apply flat_cons; try discriminate; [reflexivity|apply flat_nil]].
    apply flat_join. rewrite map_map. cbn [e_pre e_val e_post app].
    match goal with H : forallb _ els = true |- _ => rename H into He end. clear w H.
    induction IH as [|e l Hx Hl IHl]; [constructor|]. cbn [forallb map] in *. nbool. constructor; [|apply IHl; assumption].
    apply (flat_app _ []); [apply flat_ws; assumption|]. apply flat_app; [apply Hx; assumption|apply flat_ws; assumption].
  - nbool. cbn [render]. apply flat_cons; try discriminate; [reflexivity|].
    apply flat_app; [apply flat_ws; assumption|]. apply flat_app; [|apply flat_cons; try discriminate; [reflexivity|apply flat_nil]].
    apply flat_join. rewrite map_map. cbn [m_pre m_key m_mid m_mid2 m_val m_post app].
    match goal with H : forallb _ ms = true |- _ => rename H into He end. clear w H.
    induction IH as [|e l Hx Hl IHl]; [constructor|]. cbn [forallb map] in *. nbool. constructor; [|apply IHl; assumption].
    apply (flat_app _ []); [apply flat_ws; assumption|].
    replace (34 :: m_key e ++ 34 :: m_mid e ++ 58 :: m_mid2 e ++ render (m_val e) ++ m_post e)
      with ((34 :: m_key e ++ [34]) ++ m_mid e ++ 58 :: m_mid2 e ++ render (m_val e) ++ m_post e) by same_text.
    replace (34 :: m_key e ++ 34 :: 58 :: render (strip (m_val e)) ++ [])
      with ((34 :: m_key e ++ [34]) ++ [] ++ 58 :: [] ++ render (strip (m_val e)) ++ []) by same_text.
    apply flat_app; [apply flat_string; assumption|]. apply flat_app; [apply flat_ws; assumption|].
    apply flat_cons; try discriminate; [reflexivity|]. apply flat_app; [apply flat_ws; assumption|].
    apply flat_app; [apply Hx; assumption|apply flat_ws; assumption].
Qed.

Lemma flatten_doc d : wf_doc d = true -> Flatten (text d) = render (strip (d_val d)).
Proof.
  unfold wf_doc. intro H. nbool. unfold Flatten, text. rewrite (flat_ws (d_pre d)) by assumption.
  rewrite flat_value by assumption. rewrite <- (app_nil_r (d_post d)), (flat_ws (d_post d)) by assumption.
  cbn. apply app_nil_r.
Qed.

Lemma strip_content v : content (strip v) = content v.
Proof.
  induction v as [s|s|w els IH|w ms IH] using jv_ind'; cbn [strip content]; try reflexivity; rewrite map_map; f_equal;
  apply map_ext_Forall; (eapply Forall_impl; [|exact IH]); intros e He; cbn; congruence.
Qed.

Lemma strip_wf v : wf v = true -> wf (strip v) = true.
Proof.
  induction v as [s|s|w els IH|w ms IH] using jv_ind'; cbn [strip wf]; intro H; try exact H; nbool; cbn [ws_ok forallb andb];
  induction IH as [|e l He Hl IHl]; try reflexivity; cbn [map forallb] in *; nbool; cbn [e_val e_pre e_post m_pre m_key m_mid m_mid2 m_val m_post ws_ok forallb andb].
  - rewrite He by assumption. cbn. apply IHl. assumption.
  - rewrite He by assumption. rewrite IHl by assumption. rewrite !andb_true_r. assumption.
Qed.

(** ** Indent *)
Lemma emit_emit x y r : emit x (emit y r) = emit (x ++ y) r.
Proof. unfold emit. destruct r; cbn [bind]; try reflexivity. rewrite app_assoc. reflexivity. Qed.
Lemma emit_ok x o : emit x (Ok o) = Ok (x ++ o). Proof. reflexivity. Qed.

(** At level [l] and after byte [q], [s] is written as [t]; afterwards the previous byte is [q']. *)
Definition writes (q : option N) (l : nat) (s t : bytes) (q' : option N) : Prop := forall post,
  indent_loop (s ++ post) q (Z.of_nat l) false = emit t (indent_loop post q' (Z.of_nat l) false).

Definition lastb (q : option N) (s : bytes) : option N := match s with [] => q | _ => Some (last s 0) end.

(** Every quote in [s] follows a backslash. *)
Fixpoint qesc (p : N) (s : bytes) : bool :=
  match s with [] => true | c :: r => (negb (c =? 34) || (p =? 92)) && qesc c r end.

Lemma str_qesc s : str_ok s = true -> forall p, qesc p s = true.
Proof.
  induction s as [s IH] using len_ind. intros H p. destruct s as [|c r]; [reflexivity|]. cbn [str_ok qesc] in *.
  destruct (c =? 34) eqn:E1; [discriminate|]. cbn [negb orb andb]. destruct (c =? 92) eqn:E2.
  - destruct r as [|d r]; [discriminate|]. cbn [qesc]. rewrite E2, orb_true_r. cbn [andb]. apply IH; [cbn; lia|exact H].
  - apply IH; [cbn; lia|exact H].
Qed.

Lemma last_default {A} (s : list A) x y : s <> [] -> last s x = last s y.
Proof. induction s as [|a [|b s] IH]; intro H; [contradiction|reflexivity|]. cbn [last] in *. apply IH. discriminate. Qed.

Lemma last_step {A} (s : list A) a x : last (a :: s) x = last s a.
Proof. destruct s as [|b s]; [reflexivity|]. change (last (b :: s) x = last (b :: s) a). apply last_default. discriminate. Qed.

Lemma indent_in s : forall c l post, qesc c s = true ->
  indent_loop (s ++ post) (Some c) l true = emit s (indent_loop post (Some (last s c)) l true).
Proof.
  induction s as [|a r IH]; intros c l post H.
  - unfold emit. cbn [app last]. destruct (indent_loop post (Some c) l true); reflexivity.
  - cbn [qesc] in H. apply andb_true_iff in H. destruct H as [H1 H2]. rewrite last_step. cbn [app indent_loop].
    destruct (a =? 34) eqn:E.
    + cbn [negb orb] in H1. rewrite H1. rewrite IH by exact H2. rewrite emit_emit. reflexivity.
    + rewrite IH by exact H2. rewrite emit_emit. reflexivity.
Qed.

Lemma writes_nil q l : writes q l [] [] q.
Proof. intro post. unfold emit. cbn [app]. destruct (indent_loop post q (Z.of_nat l) false); reflexivity. Qed.
Lemma writes_app q l s t q' s' t' q'' : writes q l s t q' -> writes q' l s' t' q'' -> writes q l (s ++ s') (t ++ t') q''.
Proof. intros H1 H2 post. rewrite <- app_assoc, H1, H2, emit_emit. reflexivity. Qed.

Lemma writes_string d l s : d <> 92 -> str_ok s = true -> last s 0 <> 92 -> writes (Some d) l (34 :: s ++ [34]) (34 :: s ++ [34]) (Some 34).
Proof.
  intros Hd Hs Hl post. cbn [app indent_loop]. change (34 =? 34) with true. rewrite (eqb_false d 92) by exact Hd.
  cbn [negb]. rewrite <- app_assoc. rewrite indent_in by (apply str_qesc; exact Hs).
  assert (Hl' : last s 34 <> 92) by (destruct s as [|a s]; [discriminate|]; rewrite (last_default _ 34 0) by discriminate; exact Hl).
  cbn [app indent_loop]. change (34 =? 34) with true. rewrite (eqb_false _ 92) by exact Hl'. cbn [negb].
  rewrite !emit_emit. f_equal.
Qed.

Lemma writes_scalar s : forall q l, Forall (fun c => is_token_char c = true) s -> writes q l s s (lastb q s).
Proof.
  induction s as [|c s IH]; intros q l H; [apply writes_nil|]. inversion H as [|? ? H1 H2]; subst.
  intro post. cbn [app indent_loop]. apply token_plain in H1. destruct H1 as (P1 & P2 & P3). apply plain_neq in P1.
  unfold is_open, is_close. rewrite !eqb_false by tauto. change (space c) with (is_ws c). rewrite P3. cbn [orb].
  rewrite (IH (Some c) l H2). rewrite emit_emit. f_equal. f_equal.
  unfold lastb. rewrite last_step. destruct s; [reflexivity|]. f_equal. apply last_default. discriminate.
Qed.

Lemma tabs n : createTabs (Z.of_nat n) = Ok (repeat 9 n).
Proof. unfold createTabs. rewrite (proj2 (Z.ltb_ge _ _)) by lia. rewrite Nat2Z.id. reflexivity. Qed.

Lemma writes_colon q l : writes q l [58] [58; 32] (Some 58).
Proof. intro post. reflexivity. Qed.
Lemma writes_comma q l : writes q l [44] (44 :: line l) (Some 44).
Proof. intro post. cbn [app indent_loop]. change (44 =? 34) with false. change (space 44) with false. cbn [is_open is_close N.eqb Pos.eqb orb]. rewrite tabs. reflexivity. Qed.

(** A bracketed text: brackets, the inside one level deeper. *)
Lemma writes_brackets q l o c s t q' : is_open o = true -> is_close c = true -> writes (Some o) (S l) s t q' ->
  writes q l (o :: s ++ [c]) (o :: line (S l) ++ t ++ line l ++ [c]) (Some c).
Proof.
  intros Ho Hc H post.
  assert (Eo : (o =? 34) = false /\ space o = false) by (apply open_cases in Ho; destruct Ho; subst; split; reflexivity).
  assert (Ec : (c =? 34) = false /\ space c = false /\ is_open c = false) by (apply close_cases in Hc; destruct Hc; subst; repeat split; reflexivity).
  destruct Eo as [E1 E2], Ec as (E3 & E4 & E5).
  cbn [app indent_loop]. rewrite E1, E2, Ho. replace (Z.of_nat l + 1)%Z with (Z.of_nat (S l)) by lia. rewrite tabs. cbn [bind].
  rewrite <- app_assoc. rewrite H. cbn [app indent_loop]. rewrite E3, E4, E5, Hc.
  replace (Z.of_nat (S l) - 1)%Z with (Z.of_nat l) by lia. rewrite tabs. cbn [bind].
  rewrite !emit_emit. f_equal. unfold line. cbn [app]. do 2 f_equal. rewrite <- !app_assoc. reflexivity.
Qed.

(** Items separated by commas. *)
Lemma writes_join l xs ys : forall q, Forall2 (fun x y => forall c, c <> 92 -> exists q', writes (Some c) l x y q') xs ys ->
  q <> 92 -> exists q', writes (Some q) l (join xs) (concat (match ys with [] => [] | y :: r => y :: map (fun y => 44 :: line l ++ y) r end)) q'.
Proof.
  intros q H. revert q. induction H as [|x y l1 l2 Hx Hl IH]; intros q Hq; [exists (Some q); apply writes_nil|].
  destruct (Hx q Hq) as (q1 & H1). destruct Hl as [|x2 y2 l1 l2 Hx2 Hl].
  - exists q1. cbn [map concat]. rewrite app_nil_r. exact H1.
  - destruct (IH 44 ltac:(discriminate)) as (q2 & H2). exists q2.
    change (join (x :: x2 :: l1)) with (x ++ [44] ++ join (x2 :: l1)). cbn [map concat].
    apply (writes_app _ _ _ _ q1); [exact H1|].
    replace ((44 :: line l ++ y2) ++ concat (map (fun y => 44 :: line l ++ y) l2)) with
      ((44 :: line l) ++ concat (y2 :: map (fun y => 44 :: line l ++ y) l2)) by (cbn [concat app]; rewrite <- app_assoc; reflexivity).
    apply (writes_app _ _ _ _ (Some 44)); [apply writes_comma|]. exact H2.
Qed.

Lemma join_cons_ne x l : l <> [] -> join (x :: l) = x ++ 44 :: join l.
Proof. destruct l; [contradiction|reflexivity]. Qed.

(** The layout as rendered: [rows] of texts. *)
Lemma join_rows {A} (f : bytes -> A -> bytes -> bytes) (g : A -> bytes) n xs :
  (forall u x w, f u x w = u ++ g x ++ w) -> xs <> [] -> forall u,
  join (rows f n u xs) = u ++ concat (match map g xs with [] => [] | y :: r => y :: map (fun y => 44 :: line (S n) ++ y) r end) ++ line n.
Proof.
  intros Hf. induction xs as [|x l IH]; intros Hne u; [contradiction|]. destruct l as [|y l].
  - cbn [rows join map concat]. rewrite Hf, app_nil_r. reflexivity.
  - change (rows f n u (x :: y :: l)) with (f u x [] :: rows f n (line (S n)) (y :: l)).
    rewrite join_cons_ne.
    + rewrite IH by discriminate. rewrite Hf. cbn [map concat]. rewrite !app_nil_r, <- !app_assoc. cbn [app]. rewrite <- !app_assoc. reflexivity.
    + destruct l; discriminate.
Qed.

Lemma rows_map {A B C} (h : B -> C) (f : bytes -> A -> bytes -> B) n xs : forall u,
  map h (rows f n u xs) = rows (fun u x w => h (f u x w)) n u xs.
Proof.
  induction xs as [|x l IH]; intro u; [reflexivity|]. destruct l as [|y l]; [reflexivity|].
  change (rows f n u (x :: y :: l)) with (f u x [] :: rows f n (line (S n)) (y :: l)). cbn [map]. rewrite IH. reflexivity.
Qed.

Lemma pretty_arr n w els : els <> [] ->
  render (pretty n (JArr w els)) =
  91 :: line (S n) ++ concat (match map (fun e => render (pretty (S n) (e_val e))) els with
                              | [] => [] | y :: r => y :: map (fun y => 44 :: line (S n) ++ y) r end) ++ line n ++ [93].
Proof.
  intro Hne. destruct els as [|e l]; [contradiction|]. cbn [pretty]. cbn [render app]. rewrite rows_map.
  rewrite (join_rows _ render n (map (fun e => pretty (S n) (e_val e)) (e :: l))); [|reflexivity|discriminate].
  rewrite map_map. rewrite <- !app_assoc. reflexivity.
Qed.

Definition member_line (n : nat) (m : mem jv) : bytes := 34 :: m_key m ++ 34 :: 58 :: 32 :: render (pretty n (m_val m)).
Lemma pretty_obj n w ms : ms <> [] ->
  render (pretty n (JObj w ms)) =
  123 :: line (S n) ++ concat (match map (member_line (S n)) ms with
                              | [] => [] | y :: r => y :: map (fun y => 44 :: line (S n) ++ y) r end) ++ line n ++ [125].
Proof.
  intro Hne. destruct ms as [|m l]; [contradiction|]. cbn [pretty]. cbn [render app]. rewrite rows_map.
  rewrite (join_rows _ (fun p => 34 :: fst p ++ 34 :: 58 :: 32 :: render (snd p)) n (map (fun m => (m_key m, pretty (S n) (m_val m))) (m :: l))); [| |discriminate].
  - rewrite map_map. rewrite <- !app_assoc. reflexivity.
  - intros u x v. cbn [m_pre m_key m_mid m_mid2 m_val m_post app]. f_equal. cbn [app]. f_equal. rewrite <- app_assoc. reflexivity.
Qed.

Lemma writes_value v : wf v = true -> calm v = true -> forall q l,
  (match v with JString _ => exists c, q = Some c /\ c <> 92 | _ => True end) ->
  exists q', writes q l (render (strip v)) (render (pretty l v)) q'.
Proof.
  induction v as [s|s|w els IH|w ms IH] using jv_ind'; intros Hw Hc q l Hq; cbn [wf calm] in *.
  - apply scalar_ok_inv in Hw. exists (lastb q s). apply writes_scalar. tauto.
  - destruct Hq as (c & -> & Hq). exists (Some 34). apply writes_string; [exact Hq|exact Hw|].
    apply negb_true_iff in Hc. apply N.eqb_neq in Hc. exact Hc.
  - nbool. cbn [strip]. cbn [render app]. rewrite map_map. cbn [e_pre e_val e_post app].
    destruct els as [|e els].
    + exists (Some 93). pose proof (writes_brackets q l 91 93 [] [] (Some 91) eq_refl eq_refl (writes_nil _ _)) as HH. 
      cbn [pretty render map join app]. rewrite <- app_assoc. exact HH.
    + rewrite pretty_arr by discriminate. set (EL := e :: els) in *.
      destruct (writes_join (S l) (map (fun x => render (strip (e_val x)) ++ []) EL) (map (fun e => render (pretty (S l) (e_val e))) EL) 91) as (q' & HH); [|discriminate|].
      * clearbody EL. match goal with H : forallb _ EL = true |- _ => idtac end.
        clear Hq. induction IH as [|x l' Hx Hl' IHl]; [constructor|]. cbn [map forallb] in *. nbool.
        constructor; [|apply IHl; assumption]. intros c Hcc. rewrite app_nil_r. apply Hx; try assumption.
        destruct (e_val x); try exact I. eauto.
      * exists (Some 93). pose proof (writes_brackets q l 91 93 _ _ q' eq_refl eq_refl HH) as G. exact G.
  - nbool. cbn [strip]. cbn [render app]. rewrite map_map. cbn [m_pre m_key m_mid m_mid2 m_val m_post app].
    destruct ms as [|e els].
    + exists (Some 125). pose proof (writes_brackets q l 123 125 [] [] (Some 123) eq_refl eq_refl (writes_nil _ _)) as HH. 
      cbn [pretty render map join app]. rewrite <- app_assoc. exact HH.
    + rewrite pretty_obj by discriminate. set (EL := e :: els) in *.
      destruct (writes_join (S l) (map (fun x => 34 :: m_key x ++ 34 :: 58 :: render (strip (m_val x)) ++ []) EL) (map (member_line (S l)) EL) 123) as (q' & HH); [|discriminate|].
      * clearbody EL. clear Hq. induction IH as [|x l' Hx Hl' IHl]; [constructor|]. cbn [map forallb] in *. nbool.
        constructor; [|apply IHl; assumption]. intros c Hcc. rewrite app_nil_r. unfold member_line.
        destruct (Hx ltac:(assumption) ltac:(assumption) (Some 58) (S l)) as (q' & HH).
        { destruct (m_val x); try exact I. exists 58. split; [reflexivity|discriminate]. }
        exists q'.
        replace (34 :: m_key x ++ 34 :: 58 :: render (strip (m_val x))) with ((34 :: m_key x ++ [34]) ++ [58] ++ render (strip (m_val x))) by same_text.
        replace (34 :: m_key x ++ 34 :: 58 :: 32 :: render (pretty (S l) (m_val x))) with ((34 :: m_key x ++ [34]) ++ [58; 32] ++ render (pretty (S l) (m_val x))) by same_text.
        apply (writes_app _ _ _ _ (Some 34)); [apply writes_string; assumption|].
        apply (writes_app _ _ _ _ (Some 58)); [apply writes_colon|exact HH].
      * exists (Some 125). pose proof (writes_brackets q l 123 125 _ _ q' eq_refl eq_refl HH) as G. exact G.
Qed.

Lemma rows_content {A B C} (h : B -> C) (g : A -> C) (f : bytes -> A -> bytes -> B) n xs :
  (forall u x w, h (f u x w) = g x) -> forall u, map h (rows f n u xs) = map g xs.
Proof.
  intro Hf. induction xs as [|x l IH]; intro u; [reflexivity|]. destruct l as [|y l]; [cbn; rewrite Hf; reflexivity|].
  change (rows f n u (x :: y :: l)) with (f u x [] :: rows f n (line (S n)) (y :: l)). cbn [map]. rewrite IH, Hf. reflexivity.
Qed.

Lemma pretty_content v : forall n, content (pretty n v) = content v.
Proof.
  induction v as [s|s|w els IH|w ms IH] using jv_ind'; intro n; try reflexivity.
  - destruct els as [|e els]; [reflexivity|]. cbn [pretty content]. f_equal.
    rewrite (rows_content _ content) by reflexivity. rewrite map_map.
    apply map_ext_Forall. eapply Forall_impl; [|exact IH]. intros a Ha. apply Ha.
  - destruct ms as [|e els]; [reflexivity|]. cbn [pretty content]. f_equal.
    rewrite (rows_content _ (fun p => (fst p, content (snd p)))) by reflexivity. rewrite map_map.
    apply map_ext_Forall. eapply Forall_impl; [|exact IH]. intros a Ha. cbn. rewrite Ha. reflexivity.
Qed.

Lemma line_ws n : ws_ok (line n) = true.
Proof. unfold line. cbn. induction n; [reflexivity|exact IHn]. Qed.

Lemma rows_ok {A B} (p : B -> bool) (f : bytes -> A -> bytes -> B) n xs :
  (forall u x w, ws_ok u = true -> ws_ok w = true -> In x xs -> p (f u x w) = true) ->
  forall u, ws_ok u = true -> forallb p (rows f n u xs) = true.
Proof.
  induction xs as [|x l IH]; intros Hf u Hu; [reflexivity|]. destruct l as [|y l].
  - cbn. rewrite Hf; [reflexivity|exact Hu|apply line_ws|left; reflexivity].
  - change (rows f n u (x :: y :: l)) with (f u x [] :: rows f n (line (S n)) (y :: l)). cbn [forallb].
    rewrite Hf; [|exact Hu|reflexivity|left; reflexivity]. cbn [andb]. apply IH; [|apply line_ws].
    intros. apply Hf; try assumption. right. assumption.
Qed.

Lemma pretty_wf v : forall n, wf v = true -> wf (pretty n v) = true.
Proof.
  induction v as [s|s|w els IH|w ms IH] using jv_ind'; intros n H; try exact H.
  - destruct els as [|e els]; [cbn [pretty wf forallb]; rewrite ws_ok_app, !line_ws; reflexivity|].
    cbn [wf] in H. apply andb_true_iff in H. destruct H as [_ H]. cbn [pretty]. cbn [wf ws_ok forallb andb].
    apply rows_ok; [|apply line_ws]. intros u x w' Hu Hw Hin. cbn [e_pre e_val e_post]. rewrite Hu, Hw. rewrite andb_true_r.
    apply in_map_iff in Hin. destruct Hin as (a & <- & Ha). rewrite Forall_forall in IH. rewrite forallb_forall in H.
    specialize (H a Ha). nbool. cbn [andb]. apply (IH a Ha). assumption.
  - destruct ms as [|e els]; [cbn [pretty wf forallb]; rewrite ws_ok_app, !line_ws; reflexivity|].
    cbn [wf] in H. apply andb_true_iff in H. destruct H as [_ H]. cbn [pretty]. cbn [wf ws_ok forallb andb].
    apply rows_ok; [|apply line_ws]. intros u x w' Hu Hw Hin. cbn [m_pre m_key m_mid m_mid2 m_val m_post]. rewrite Hu, Hw. rewrite andb_true_r.
    apply in_map_iff in Hin. destruct Hin as (a & <- & Ha). rewrite Forall_forall in IH. rewrite forallb_forall in H.
    specialize (H a Ha). nbool. cbn [fst snd andb].
    match goal with H : str_ok (m_key a) = true |- _ => rewrite H end. apply (IH a Ha). assumption.
Qed.

Lemma strip_of_content u v : content u = content v -> strip u = strip v.
Proof.
  revert v. induction u as [s|s|w els IH|w ms IH] using jv_ind'; intros [s'|s'|w' els'|w' ms'] H; try discriminate H; cbn [content strip] in *.
  - congruence.
  - congruence.
  - injection H as H. f_equal. revert els' H. induction IH as [|e l He Hl IHl]; intros [|e' l'] H; try discriminate H; [reflexivity|].
    cbn [map] in *. injection H as H1 H2. rewrite (He _ H1). f_equal. apply IHl. exact H2.
  - injection H as H. f_equal. revert ms' H. induction IH as [|e l He Hl IHl]; intros [|e' l'] H; try discriminate H; [reflexivity|].
    cbn [map] in *. injection H as H0 H1 H2. rewrite H0, (He _ H1). f_equal. apply IHl. exact H2.
Qed.

Lemma indent_doc d : wf_doc d = true -> calm (d_val d) = true -> (forall s, d_val d <> JString s) ->
  Indent (text d) = Ok (render (pretty 0 (d_val d))).
Proof.
  intros Hw Hc Hs. unfold Indent. rewrite flatten_doc by exact Hw. unfold wf_doc in Hw. nbool.
  destruct (writes_value (d_val d) ltac:(assumption) Hc None 0%nat) as (q' & HH).
  { destruct (d_val d); try exact I. exfalso. eapply Hs. reflexivity. }
  specialize (HH []). rewrite app_nil_r in HH. cbn [indent_loop Z.of_nat] in HH. rewrite HH, emit_ok, app_nil_r. reflexivity.
Qed.

Lemma indent_flatten d : wf_doc d = true -> calm (d_val d) = true -> (forall s, d_val d <> JString s) ->
  exists out, Indent (text d) = Ok out /\ Flatten out = Flatten (text d).
Proof.
  intros Hw Hc Hs. exists (render (pretty 0 (d_val d))). split; [apply indent_doc; assumption|].
  rewrite (flatten_doc d Hw). unfold wf_doc in Hw. nbool.
  assert (E : render (pretty 0 (d_val d)) = text (Doc [] (pretty 0 (d_val d)) [])) by (unfold text; cbn; rewrite app_nil_r; reflexivity).
  rewrite E, flatten_doc.
  - cbn [d_val]. f_equal. apply strip_of_content. apply pretty_content.
  - unfold wf_doc. cbn [d_pre d_val d_post ws_ok forallb andb]. rewrite pretty_wf by assumption. reflexivity.
Qed.

Lemma flatten_same d d' : wf_doc d = true -> wf_doc d' = true -> content (d_val d) = content (d_val d') ->
  Flatten (text d) = Flatten (text d').
Proof. intros H1 H2 H. rewrite !flatten_doc by assumption. rewrite (strip_of_content _ _ H). reflexivity. Qed.

(** ** Indent on arbitrary bytes *)
Definition nb (c : N) : bool := negb (is_ws c).

Lemma filter_blank w : ws_ok w = true -> filter nb w = [].
Proof.
  unfold ws_ok. induction w as [|c w IH]; intro H; [reflexivity|]. cbn [forallb filter] in *. nbool. unfold nb at 1.
  rewrite H. apply IH. assumption.
Qed.

Lemma tabs_inv l t : createTabs l = Ok t -> ws_ok t = true.
Proof.
  unfold createTabs. destruct (l <? 0)%Z; [discriminate|]. intro H. injection H as <-.
  unfold ws_ok. apply forallb_forall. intros x Hx. apply repeat_spec in Hx. subst. reflexivity.
Qed.

Lemma emit_inv x r out : emit x r = Ok out -> exists o, r = Ok o /\ out = x ++ o.
Proof. unfold emit. destruct r; cbn [bind]; try discriminate. intro H. injection H as <-. eauto. Qed.

Lemma indent_loop_keeps s : forall p l q out, indent_loop s p l q = Ok out -> filter nb out = filter nb s.
Proof.
  induction s as [|c r IH]; intros p l q out H; cbn [indent_loop] in H; [injection H as <-; reflexivity|].
  assert (E1 : forall r', (exists p l q, r' = indent_loop r p l q) -> emit [c] r' = Ok out -> filter nb out = filter nb (c :: r)).
  { intros r' (p' & l' & q' & ->) He. apply emit_inv in He. destruct He as (o & Ho & ->). apply IH in Ho.
    cbn [app filter]. rewrite Ho. reflexivity. }
  destruct (c =? 34); [destruct p; [|discriminate]; eapply E1; [|exact H]; eauto|].
  destruct q; [eapply E1; [|exact H]; eauto|].
  destruct (space c) eqn:Es.
  { apply IH in H. rewrite H. cbn [filter]. unfold nb at 2. change (is_ws c) with (space c). rewrite Es. reflexivity. }
  destruct (is_open c).
  { destruct (createTabs (l + 1)) eqn:Et; try discriminate. cbn [bind] in H. apply emit_inv in H. destruct H as (o & Ho & ->).
    apply IH in Ho. apply tabs_inv in Et. cbn [app filter]. rewrite filter_app, (filter_blank _ Et), Ho. reflexivity. }
  destruct (is_close c).
  { destruct (createTabs (l - 1)) eqn:Et; try discriminate. cbn [bind] in H. apply emit_inv in H. destruct H as (o & Ho & ->).
    apply IH in Ho. apply tabs_inv in Et. cbn [app filter]. rewrite !filter_app, (filter_blank _ Et), Ho. cbn [app filter]. 
    change (nb 10) with false. cbv iota. destruct (nb c); reflexivity. }
  destruct (c =? 44).
  { destruct (createTabs l) eqn:Et; try discriminate. cbn [bind] in H. apply emit_inv in H. destruct H as (o & Ho & ->).
    apply IH in Ho. apply tabs_inv in Et. cbn [app filter]. rewrite filter_app, (filter_blank _ Et), Ho. reflexivity. }
  destruct (c =? 58).
  { apply emit_inv in H. destruct H as (o & Ho & ->). apply IH in Ho. cbn [app filter]. rewrite Ho. reflexivity. }
  eapply E1; [|exact H]; eauto.
Qed.

Lemma indent_keeps json out : Indent json = Ok out ->
  filter (fun c => negb (is_ws c)) out = filter (fun c => negb (is_ws c)) json.
Proof. intro H. apply indent_loop_keeps in H. etransitivity; [exact H|]. apply (flatten_keeps json false). Qed.

(** When it panics. *)
Lemma emit_panic x r : emit x r = Panic <-> r = Panic.
Proof. unfold emit. destruct r; cbn [bind]; split; congruence. Qed.

Lemma low_cons p q c r l (n : Z) q' : (0 <= l)%Z -> (forall t, nesting p q (c :: t) = nesting c q' t + n)%Z ->
  ((exists t u, c :: r = t ++ u /\ (l + nesting p q t < 0)%Z) <-> (exists t u, r = t ++ u /\ (l + n + nesting c q' t < 0)%Z)).
Proof.
  intros Hl Hn. split; intros (t & u & E & H).
  - destruct t as [|x t]; [cbn in H; lia|]. injection E as <- E. exists t, u. split; [exact E|]. rewrite Hn in H. lia.
  - exists (c :: t), u. split; [rewrite E; reflexivity|]. rewrite Hn. lia.
Qed.

Lemma indent_panic s : forall p l q, (0 <= l)%Z ->
  (indent_loop s (Some p) l q = Panic <-> exists t u, s = t ++ u /\ (l + nesting p q t < 0)%Z).
Proof.
  induction s as [|c r IH]; intros p l q Hl; cbn [indent_loop].
  { split; [discriminate|]. intros (t & u & E & H). destruct t; [|discriminate]. cbn in H. lia. }
  assert (T : forall n, (0 <= n)%Z -> exists t, createTabs n = Ok t).
  { intros n Hn. unfold createTabs. destruct (Z.ltb_spec n 0); [lia|]. eauto. }
  destruct (c =? 34) eqn:E34.
  { assert (N0 : forall t, (nesting p q (c :: t) = nesting c (if (p =? 92)%N then q else negb q) t + 0)%Z).
    { intro t. apply N.eqb_eq in E34. subst c. cbn [nesting]. destruct (p =? 92); cbn; [destruct q|]; lia. }
    rewrite (low_cons p q c r l 0 _ Hl N0), Z.add_0_r. rewrite emit_panic, IH by exact Hl. reflexivity. }
  destruct q.
  { assert (N0 : forall t, (nesting p true (c :: t) = nesting c true t + 0)%Z).
    { intro t. cbn [nesting]. rewrite E34. cbn [andb]. lia. }
    rewrite (low_cons p true c r l 0 true Hl N0), Z.add_0_r. rewrite emit_panic, IH by exact Hl. reflexivity. }
  destruct (space c) eqn:Es.
  { rewrite IH by exact Hl. rewrite (low_cons p false c r l 0 false).
    - rewrite Z.add_0_r. reflexivity.
    - exact Hl.
    - intro t. cbn [nesting]. rewrite E34. cbn [andb]. destruct (ws_plain c Es) as [Es' _]. apply plain_neq in Es'.
      rewrite !eqb_false by tauto. cbn [orb]. lia. }
  destruct (is_open c) eqn:Eo.
  { destruct (T (l + 1)%Z ltac:(lia)) as [t0 ->]. cbn [bind]. rewrite emit_panic, IH by lia.
    rewrite (low_cons p false c r l 1 false); [reflexivity|exact Hl|].
    intro t. cbn [nesting]. rewrite E34. cbn [andb]. change ((c =? 91) || (c =? 123)) with (is_open c). rewrite Eo. reflexivity. }
  destruct (is_close c) eqn:Ec.
  { assert (N0 : forall t, (nesting p false (c :: t) = nesting c false t + -1)%Z).
    { intro t. cbn [nesting]. rewrite E34. cbn [andb]. change ((c =? 91) || (c =? 123)) with (is_open c). rewrite Eo.
      change ((c =? 93) || (c =? 125)) with (is_close c). rewrite Ec. lia. }
    rewrite (low_cons p false c r l (-1) false Hl N0). destruct (Z.eq_dec l 0) as [->|Hl0].
    - cbn. split; [|reflexivity]. intros _. exists [], r. split; [reflexivity|]. cbn. lia.
    - destruct (T (l - 1)%Z ltac:(lia)) as [t0 ->]. cbn [bind]. rewrite emit_panic, IH by lia. reflexivity. }
  assert (N0 : forall t, (nesting p false (c :: t) = nesting c false t + 0)%Z).
  { intro t. cbn [nesting]. rewrite E34. cbn [andb]. change ((c =? 91) || (c =? 123)) with (is_open c). rewrite Eo.
    change ((c =? 93) || (c =? 125)) with (is_close c). rewrite Ec. lia. }
  rewrite (low_cons p false c r l 0 false Hl N0), Z.add_0_r.
  destruct (c =? 44). { destruct (T l Hl) as [t0 ->]. cbn [bind]. rewrite emit_panic, IH by exact Hl. reflexivity. }
  destruct (c =? 58); rewrite emit_panic, IH by exact Hl; reflexivity.
Qed.

Lemma indent_never_err s : forall p l q e, indent_loop s p l q <> Err e.
Proof.
  assert (E : forall x r (e : err), (forall e, r <> Err e) -> emit x r <> Err e).
  { intros x r e H. unfold emit. destruct r; cbn [bind]; [discriminate|exact (fun _ => H _ eq_refl)|discriminate]. }
  assert (T : forall n (k : bytes -> res bytes) (e : err), (forall t, k t <> Err e) -> (do t <- createTabs n; k t) <> Err e).
  { intros n k e H. unfold createTabs. destruct (n <? 0)%Z; cbn [bind]; [discriminate|apply H]. }
  induction s as [|c r IH]; intros p l q e; cbn [indent_loop]; [discriminate|].
  destruct (c =? 34); [destruct p; [|discriminate]; apply E; intro; apply IH|]. destruct q; [apply E; intro; apply IH|].
  destruct (space c); [apply IH|]. destruct (is_open c); [apply T; intro; apply E; intro; apply IH|].
  destruct (is_close c); [apply T; intro; apply E; intro; apply IH|]. destruct (c =? 44); [apply T; intro; apply E; intro; apply IH|].
  destruct (c =? 58); apply E; intro; apply IH.
Qed.

Lemma indent_panics json :
  (Indent json = Panic <-> (exists r, Flatten json = 34 :: r) \/ exists t u, Flatten json = t ++ u /\ (nesting 0 false t < 0)%Z) /\
  (Indent json <> Panic -> exists out, Indent json = Ok out).
Proof.
  split.
  - unfold Indent. destruct (Flatten json) as [|c r]; cbn [indent_loop].
    { split; [discriminate|]. intros [[r H]|(t & u & E & H)]; [discriminate|]. destruct t; [|discriminate]. cbn in H. lia. }
    destruct (N.eq_dec c 34) as [->|Hc].
    { cbn. split; [|reflexivity]. intros _. left. eauto. }
    pose proof (indent_panic (c :: r) 0 0 false ltac:(lia)) as P. cbn [indent_loop] in P.
    rewrite (eqb_false c 34) in * by exact Hc. rewrite P. split.
    + intros H. right. exact H.
    + intros [[r' H]|H]; [congruence|exact H].
  - intro H. unfold Indent in *. pose proof (indent_never_err (Flatten json) None 0%Z false) as E.
    destruct (indent_loop (Flatten json) None 0 false) as [o|e|]; [eauto|destruct (E e eq_refl)|contradiction].
Qed.

(** Flatten after Indent. *)
Lemma flatten_ws w post : ws_ok w = true -> flatten (w ++ post) false = flatten post false.
Proof. intro H. exact (flat_ws w H post). Qed.

Lemma indent_loop_flatten s : forall p l q out, tame q s = true -> ((p =? 92) && (hd 0 s =? 34))%N = false ->
  indent_loop s (Some p) l q = Ok out -> flatten out q = flatten s q.
Proof.
  induction s as [s IH] using len_ind. intros p l q out Ht Hp H. destruct s as [|c r]; [injection H as <-; reflexivity|].
  cbn [indent_loop] in H. cbn [tame] in Ht. cbn [hd] in Hp.
  destruct (c =? 34) eqn:E34.
  { rewrite andb_true_r in Hp. rewrite Hp in H. apply emit_inv in H. destruct H as (o & Ho & ->).
    apply N.eqb_eq in E34. subst c. change (34 =? 92) with false in Ht. cbv iota in Ht.
    apply IH in Ho; [|cbn; lia|exact Ht|reflexivity]. cbn. rewrite Ho. reflexivity. }
  destruct (c =? 92) eqn:E92.
  { apply andb_true_iff in Ht. destruct Ht as [Hq Ht]. subst q. apply emit_inv in H. destruct H as (o & Ho & ->).
    destruct r as [|d r]; [injection Ho as <-; reflexivity|].
    apply andb_true_iff in Ht. destruct Ht as [Hd Ht]. apply negb_true_iff in Hd.
    cbn [app flatten]. rewrite E92.
    assert (exists o', o = d :: o' /\ indent_loop r (Some d) l true = Ok o') as (o' & -> & Ho').
    { cbn [indent_loop] in Ho. rewrite E92 in Ho. destruct (d =? 34); apply emit_inv in Ho; destruct Ho as (o' & Ho & ->); exists o'; split; auto. }
    apply IH in Ho'; [|cbn; lia|exact Ht|exact Hd]. rewrite Ho'. reflexivity. }
  assert (Hp' : (c =? 92) && (hd 0 r =? 34) = false) by (rewrite E92; reflexivity).
  destruct q.
  { apply emit_inv in H. destruct H as (o & Ho & ->). apply IH in Ho; [|cbn; lia|exact Ht|exact Hp'].
    cbn [app flatten]. rewrite E92, E34, Ho. reflexivity. }
  cbn [flatten]. rewrite E92, E34. destruct (space c) eqn:Es.
  { apply IH in H; [exact H|cbn; lia|exact Ht|exact Hp']. }
  destruct (is_open c).
  { destruct (createTabs (l + 1)) eqn:Et; try discriminate. cbn [bind] in H. apply emit_inv in H. destruct H as (o & Ho & ->).
    apply IH in Ho; [|cbn; lia|exact Ht|exact Hp']. apply tabs_inv in Et.
    cbn [app flatten]. rewrite E92, E34, Es. change (10 =? 92) with false. change (10 =? 34) with false. change (space 10) with true.
    cbv iota. rewrite flatten_ws by exact Et. rewrite Ho. reflexivity. }
  destruct (is_close c).
  { destruct (createTabs (l - 1)) eqn:Et; try discriminate. cbn [bind] in H. apply emit_inv in H. destruct H as (o & Ho & ->).
    apply IH in Ho; [|cbn; lia|exact Ht|exact Hp']. apply tabs_inv in Et.
    cbn [app flatten]. change (10 =? 92) with false. change (10 =? 34) with false. change (space 10) with true.
    cbv iota. rewrite <- app_assoc, flatten_ws by exact Et. cbn [app flatten]. rewrite E92, E34, Es, Ho. reflexivity. }
  destruct (c =? 44).
  { destruct (createTabs l) eqn:Et; try discriminate. cbn [bind] in H. apply emit_inv in H. destruct H as (o & Ho & ->).
    apply IH in Ho; [|cbn; lia|exact Ht|exact Hp']. apply tabs_inv in Et.
    cbn [app flatten]. rewrite E92, E34, Es. change (10 =? 92) with false. change (10 =? 34) with false. change (space 10) with true.
    cbv iota. rewrite flatten_ws by exact Et. rewrite Ho. reflexivity. }
  destruct (c =? 58); apply emit_inv in H; destruct H as (o & Ho & ->); (apply IH in Ho; [|cbn; lia|exact Ht|exact Hp']);
    cbn [app flatten]; rewrite E92, E34, Es; [|rewrite Ho; reflexivity].
  change (32 =? 92) with false. change (32 =? 34) with false. change (space 32) with true. cbv iota. rewrite Ho. reflexivity.
Qed.

Lemma flatten_hd s : hd 0 (flatten s true) = hd 0 s.
Proof.
  destruct s as [|c r]; [reflexivity|]. cbn [flatten]. destruct (c =? 92); [destruct r; reflexivity|].
  destruct (c =? 34); reflexivity.
Qed.

Lemma tame_flatten s : forall q, tame q s = true -> tame q (flatten s q) = true.
Proof.
  induction s as [s IH] using len_ind. intros q Ht. destruct s as [|c r]; [reflexivity|].
  cbn [tame flatten] in *. destruct (c =? 92) eqn:E92.
  - apply andb_true_iff in Ht. destruct Ht as [-> Ht]. destruct r as [|d r]; cbn [tame]; rewrite E92; [reflexivity|].
    apply andb_true_iff in Ht. destruct Ht as [Hd Ht]. rewrite flatten_hd, Hd. cbn [andb]. apply IH; [cbn; lia|exact Ht].
  - destruct (c =? 34) eqn:E34; [cbn [tame]; rewrite E92, E34; apply IH; [cbn; lia|exact Ht]|].
    destruct q; [cbn [tame]; rewrite E92, E34; apply IH; [cbn; lia|exact Ht]|].
    destruct (space c); [|cbn [tame]; rewrite E92, E34]; (apply IH; [cbn; lia|exact Ht]).
Qed.

Lemma indent_loop_start s l q out : indent_loop s None l q = Ok out -> indent_loop s (Some 0) l q = Ok out.
Proof. destruct s as [|c r]; [auto|]. cbn [indent_loop]. destruct (c =? 34); [discriminate|auto]. Qed.

Lemma indent_flatten_bytes json out : tame false json = true -> Indent json = Ok out -> Flatten out = Flatten json.
Proof.
  intros Ht H. apply indent_loop_start in H. apply indent_loop_flatten in H; [|apply tame_flatten; exact Ht|reflexivity].
  unfold Flatten. rewrite H. apply flatten_idem.
Qed.

Lemma indent_of_flatten json : Indent (Flatten json) = Indent json.
Proof. unfold Indent, Flatten. rewrite flatten_idem. reflexivity. Qed.

Lemma indent_idem json out : tame false json = true -> Indent json = Ok out -> Indent out = Ok out.
Proof.
  intros Ht H. rewrite <- (indent_of_flatten out), (indent_flatten_bytes json out Ht H), indent_of_flatten. exact H.
Qed.
