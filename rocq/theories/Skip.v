(** Scanning lemmas shared by every scanner of the library: a well-formed JSON value, whatever it
    contains, is passed over by a loop that tracks quotes (with the escape look-back) and brace depth. *)
From Verif Require Import GoStd Json Core.

Local Open Scope N_scope.

(** ** Small list facts *)
Lemma app_cons_assoc {A} (p : list A) c r : p ++ c :: r = (p ++ [c]) ++ r.
Proof. rewrite <- app_assoc. reflexivity. Qed.

Lemma length_snoc {A} (p : list A) c : length (p ++ [c]) = S (length p).
Proof. rewrite app_length. simpl. lia. Qed.

Lemma firstn_length_app {A} (p r : list A) : firstn (length p) (p ++ r) = p.
Proof. rewrite firstn_app, Nat.sub_diag, firstn_all. simpl. apply app_nil_r. Qed.

Lemma skipn_length_app {A} (p r : list A) : skipn (length p) (p ++ r) = r.
Proof. rewrite skipn_app, Nat.sub_diag, skipn_all. reflexivity. Qed.

Lemma skipn_app_eq {A} n (p r : list A) : n = length p -> skipn n (p ++ r) = r.
Proof. intros ->. apply skipn_length_app. Qed.

Lemma firstn_app_eq {A} n (p r : list A) : n = length p -> firstn n (p ++ r) = p.
Proof. intros ->. apply firstn_length_app. Qed.

Lemma skipn_skipn' {A} a b (l : list A) : skipn a (skipn b l) = skipn (b + a) l.
Proof.
  revert l. induction b as [|b IH]; intro l; [reflexivity|].
  destruct l; [rewrite !skipn_nil; reflexivity|]. cbn [skipn Nat.add]. apply IH.
Qed.

Lemma slice_app p s r : slice (p ++ s ++ r) (length p) (length (p ++ s)) = Ok s.
Proof.
  unfold slice. rewrite !app_length.
  replace (length p <=? length p + length s)%nat with true by (symmetry; apply Nat.leb_le; lia).
  replace (length p + length s <=? length p + (length s + length r))%nat with true
    by (symmetry; apply Nat.leb_le; lia).
  simpl. rewrite skipn_length_app. f_equal. apply firstn_app_eq. lia.
Qed.

Lemma slice_app_eq json p s r a e :
  json = p ++ s ++ r -> a = length p -> e = (length p + length s)%nat -> slice json a e = Ok s.
Proof. intros -> -> ->. rewrite <- app_length. apply slice_app. Qed.

Lemma at_app p c r : at_ (p ++ c :: r) (length p) = Ok c.
Proof. unfold at_. rewrite nth_error_app2 by lia. rewrite Nat.sub_diag. reflexivity. Qed.

Lemma at_app_eq json p c r i : json = p ++ c :: r -> i = length p -> at_ json i = Ok c.
Proof. intros -> ->. apply at_app. Qed.

Lemma nth_error_app_eq {A} (json p : list A) c r i : json = p ++ c :: r -> i = length p -> nth_error json i = Some c.
Proof. intros -> ->. rewrite nth_error_app2, Nat.sub_diag by lia. reflexivity. Qed.

Lemma replace_app p s r n : replace (p ++ s ++ r) n (length p) (length (p ++ s)) = Ok (p ++ n ++ r).
Proof.
  unfold replace. rewrite !app_length.
  replace (length p <=? length p + (length s + length r))%nat with true
    by (symmetry; apply Nat.leb_le; lia).
  replace (length p + length s <=? length p + (length s + length r))%nat with true
    by (symmetry; apply Nat.leb_le; lia).
  simpl. rewrite firstn_length_app. do 3 f_equal.
  rewrite <- app_length, app_assoc. apply skipn_length_app.
Qed.

Lemma replace_app_eq json p s r n a e :
  json = p ++ s ++ r -> a = length p -> e = (length p + length s)%nat ->
  replace json n a e = Ok (p ++ n ++ r).
Proof. intros -> -> ->. rewrite <- app_length. apply replace_app. Qed.

(** ** Escape look-back *)

(** Some byte precedes, and it is not a backslash. *)
Definition nobs (pre : bytes) : Prop := exists p c, pre = p ++ [c] /\ c <> 92.

Lemma nobs_snoc p c : c <> 92 -> nobs (p ++ [c]).
Proof. intro H. exists p, c. auto. Qed.

Lemma nobs_app pre s : nobs pre -> Forall (fun c => c <> 92) s -> nobs (pre ++ s).
Proof.
  intros H. induction s using rev_ind; intro HF.
  - rewrite app_nil_r. exact H.
  - apply Forall_app in HF. destruct HF as [_ HF]. inversion HF; subst.
    rewrite app_assoc. apply nobs_snoc. assumption.
Qed.

Lemma qscan_app pre r : qscan (pre ++ r) (length pre) = qback (rev pre) false.
Proof. unfold qscan. rewrite firstn_length_app. reflexivity. Qed.

Lemma qscan_nobs pre r : nobs pre -> qscan (pre ++ r) (length pre) = Some true.
Proof.
  intros (p & c & -> & Hc). rewrite qscan_app, rev_app_distr. simpl.
  destruct (N.eqb_spec c 92); [contradiction|reflexivity].
Qed.

(** Odd number of trailing backslashes. *)
Definition par (s : bytes) : bool := fold_left (fun o c => if c =? 92 then negb o else false) s false.

Lemma par_snoc s c : par (s ++ [c]) = if c =? 92 then negb (par s) else false.
Proof. unfold par. rewrite fold_left_app. reflexivity. Qed.

Lemma qback_par p s o :
  qback (rev (p ++ 34 :: s)) o = Some (negb (xorb o (par s))).
Proof.
  revert o. induction s as [|c s IH] using rev_ind; intro o.
  - rewrite rev_app_distr. simpl. destruct o; reflexivity.
  - replace (p ++ 34 :: s ++ [c]) with ((p ++ 34 :: s) ++ [c]) by (rewrite <- app_assoc; reflexivity).
    rewrite rev_app_distr. cbn [rev app qback]. rewrite par_snoc.
    destruct (c =? 92).
    + rewrite IH. destruct o, (par s); reflexivity.
    + destruct o; reflexivity.
Qed.

Lemma qscan_par p s r :
  qscan (p ++ 34 :: s ++ r) (length (p ++ 34 :: s)) = Some (negb (par s)).
Proof.
  replace (p ++ 34 :: s ++ r) with ((p ++ 34 :: s) ++ r) by (rewrite <- app_assoc; reflexivity).
  rewrite qscan_app, qback_par. destruct (par s); reflexivity.
Qed.

(** [str_ok] with an explicit escape state. *)
Fixpoint sok (o : bool) (s : bytes) : bool :=
  match s with
  | [] => negb o
  | c :: r => if o then sok false r
              else if c =? 34 then false else if c =? 92 then sok true r else sok false r
  end.

Lemma str_ok_sok s : str_ok s = sok false s.
Proof.
  remember (length s) as n eqn:Hn.
  assert (H : (length s <= n)%nat) by lia. clear Hn.
  revert s H. induction n as [|n IH]; intros [|c r] H; simpl in *; try reflexivity; try lia.
  destruct (c =? 34); [reflexivity|]. destruct (c =? 92).
  - destruct r as [|d r']; [reflexivity|]. cbn [sok]. apply IH. simpl in H. lia.
  - apply IH. lia.
Qed.

Lemma par_sok s0 s : sok (par s0) s = true -> par (s0 ++ s) = false.
Proof.
  revert s0. induction s as [|c r IH]; intros s0 H.
  - rewrite app_nil_r. simpl in H. destruct (par s0); [discriminate|reflexivity].
  - rewrite app_cons_assoc. apply IH. rewrite par_snoc. simpl in H.
    destruct (par s0).
    + destruct (c =? 92); exact H.
    + destruct (c =? 34); [discriminate|]. destruct (c =? 92); exact H.
Qed.

(** The quote that closes a string is unescaped. *)
Lemma qscan_close p s r :
  str_ok s = true -> qscan (p ++ 34 :: s ++ r) (length (p ++ 34 :: s)) = Some true.
Proof.
  intro H. rewrite qscan_par. rewrite str_ok_sok in H.
  pose proof (par_sok [] s H) as H1. cbn [app] in H1. rewrite H1. reflexivity.
Qed.

(** ** Passing over the inside of a string *)
Section StrSkip.
  Variable json : bytes.
  Variable R : Type.
  Variable L : bytes -> nat -> R.
  Hypothesis H_in : forall pre c r, json = pre ++ c :: r -> c <> 34 ->
    L (c :: r) (length pre) = L r (S (length pre)).
  Hypothesis H_esc : forall pre r, json = pre ++ 34 :: r -> qscan json (length pre) = Some false ->
    L (34 :: r) (length pre) = L r (S (length pre)).

  Lemma str_skip_gen pre s0 s post :
    sok (par s0) s = true -> json = pre ++ 34 :: s0 ++ s ++ post ->
    L (s ++ post) (length (pre ++ 34 :: s0)) = L post (length (pre ++ 34 :: s0 ++ s)).
  Proof.
    revert s0. induction s as [|c r IH]; intros s0 Hs Hj.
    - rewrite app_nil_r. reflexivity.
    - assert (Hstep : L ((c :: r) ++ post) (length (pre ++ 34 :: s0)) =
                      L (r ++ post) (length (pre ++ 34 :: s0 ++ [c]))).
      { replace (length (pre ++ 34 :: s0 ++ [c])) with (S (length (pre ++ 34 :: s0)))
          by (rewrite !app_length; cbn [length]; rewrite app_length; cbn [length]; lia).
        assert (Hj' : json = (pre ++ 34 :: s0) ++ c :: r ++ post)
          by (rewrite <- app_assoc; exact Hj).
        cbn [app]. destruct (N.eq_dec c 34) as [->|Hc].
        - apply H_esc; [exact Hj'|].
          rewrite Hj. cbn [app] in *. rewrite qscan_par. f_equal.
          simpl in Hs. destruct (par s0); [reflexivity|discriminate].
        - apply H_in; assumption. }
      rewrite Hstep. rewrite (IH (s0 ++ [c])).
      + rewrite <- app_assoc. reflexivity.
      + rewrite par_snoc. simpl in Hs. destruct (par s0).
        * destruct (c =? 92); exact Hs.
        * destruct (c =? 34); [discriminate|]. destruct (c =? 92); exact Hs.
      + rewrite Hj. rewrite <- app_assoc. reflexivity.
  Qed.

  Lemma str_skip pre s post :
    str_ok s = true -> json = pre ++ 34 :: s ++ post ->
    L (s ++ post) (S (length pre)) = L post (length (pre ++ 34 :: s)).
  Proof.
    intros Hs Hj. rewrite str_ok_sok in Hs.
    pose proof (str_skip_gen pre [] s post Hs Hj) as H. simpl in H.
    rewrite length_snoc in H. exact H.
  Qed.
End StrSkip.

(** ** Character classes *)
Definition plain (c : N) : bool :=
  negb ((c =? 34) || (c =? 44) || (c =? 58) || (c =? 91) || (c =? 93) || (c =? 123) || (c =? 125)).

Ltac nbool :=
  repeat match goal with
  | H : negb _ = true |- _ => apply negb_true_iff in H
  | H : negb _ = false |- _ => apply negb_false_iff in H
  | H : (_ || _)%bool = false |- _ => apply orb_false_iff in H; destruct H
  | H : (_ && _)%bool = true |- _ => apply andb_true_iff in H; destruct H
  | H : (_ =? _)%N = true |- _ => apply N.eqb_eq in H
  | H : (_ =? _)%N = false |- _ => apply N.eqb_neq in H
  end.

Lemma is_ws_space c : is_ws c = space c.
Proof. reflexivity. Qed.

Lemma ws_cases c : is_ws c = true -> c = 32 \/ c = 9 \/ c = 10 \/ c = 13.
Proof.
  unfold is_ws. rewrite !orb_true_iff. intro H.
  repeat match goal with H : _ \/ _ |- _ => destruct H as [H|H] | H : (_ =? _)%N = true |- _ => apply N.eqb_eq in H end;
  auto.
Qed.

Lemma ws_plain c : is_ws c = true -> plain c = true /\ c <> 92.
Proof. intro H. apply ws_cases in H. intuition; subst; try reflexivity; try discriminate. Qed.

Lemma token_plain c : is_token_char c = true -> plain c = true /\ c <> 92 /\ is_ws c = false.
Proof.
  unfold is_token_char, plain. intro H. apply negb_true_iff in H. nbool. split; [|split; assumption].
  apply negb_true_iff.
  repeat (apply orb_false_iff; split); apply N.eqb_neq; assumption.
Qed.

Lemma ws_ok_Forall w : ws_ok w = true <-> Forall (fun c => is_ws c = true) w.
Proof. unfold ws_ok. rewrite forallb_forall, Forall_forall. reflexivity. Qed.

Lemma ws_ok_app u v : ws_ok (u ++ v) = ws_ok u && ws_ok v.
Proof. unfold ws_ok. apply forallb_app. Qed.

Lemma scalar_ok_inv s : scalar_ok s = true -> s <> [] /\ Forall (fun c => is_token_char c = true) s.
Proof.
  unfold scalar_ok. destruct s; [discriminate|]. intro H. split; [discriminate|].
  apply Forall_forall. apply forallb_forall. exact H.
Qed.

Lemma plain_neq c : plain c = true -> c <> 34 /\ c <> 44 /\ c <> 58 /\ c <> 91 /\ c <> 93 /\ c <> 123 /\ c <> 125.
Proof. unfold plain. intro H. nbool. tauto. Qed.

(** ** Passing over whole values *)
Section Skip.
  Variable json : bytes.
  Variables R E : Type.
  (** The loop, with its quote flag, its depth and the part of its state that quotes may change. *)
  Variable L : bytes -> nat -> bool -> nat -> E -> R.
  Variable base : nat.

  (** What it takes to be such a loop. *)
  Record scanner : Prop := Scanner {
    H_plain : forall pre c r l e, json = pre ++ c :: r -> plain c = true -> (base <= l)%nat ->
    L (c :: r) (length pre) false l e = L r (S (length pre)) false l e;
    H_in : forall pre c r l e, json = pre ++ c :: r -> c <> 34 -> (base <= l)%nat ->
    L (c :: r) (length pre) true l e = L r (S (length pre)) true l e;
    H_esc : forall pre r l e, json = pre ++ 34 :: r -> (base <= l)%nat ->
    qscan json (length pre) = Some false ->
    L (34 :: r) (length pre) true l e = L r (S (length pre)) true l e;
    H_openq : forall pre r l e, json = pre ++ 34 :: r -> (base <= l)%nat ->
    qscan json (length pre) = Some true ->
    exists e', L (34 :: r) (length pre) false l e = L r (S (length pre)) true l e';
    H_closeq : forall pre r l e, json = pre ++ 34 :: r -> (base <= l)%nat ->
    qscan json (length pre) = Some true ->
    exists e', L (34 :: r) (length pre) true l e = L r (S (length pre)) false l e';
    H_open : forall pre c r l e, json = pre ++ c :: r -> is_open c = true -> (base <= l)%nat ->
    exists e', L (c :: r) (length pre) false l e = L r (S (length pre)) false (S l) e';
    H_close : forall pre c r l e, json = pre ++ c :: r -> is_close c = true -> (base <= l)%nat ->
    exists e', L (c :: r) (length pre) false (S l) e = L r (S (length pre)) false l e';
    H_sep : forall pre c r l e, json = pre ++ c :: r -> c = 44 \/ c = 58 -> (base < l)%nat ->
    exists e', L (c :: r) (length pre) false l e = L r (S (length pre)) false l e'
  }.
  Hypothesis SC : scanner.

  (** [Skips d s]: at depth at least [base + d], outside quotes, the loop passes over [s]. *)
  Definition Skips (d : nat) (s : bytes) : Prop :=
    forall pre post l e, json = pre ++ s ++ post -> nobs pre -> (base + d <= l)%nat ->
      nobs (pre ++ s) /\
      exists e', L (s ++ post) (length pre) false l e = L post (length (pre ++ s)) false l e'.

  Lemma Skips_mono d d' s : (d <= d')%nat -> Skips d s -> Skips d' s.
  Proof. intros Hd H pre post l e Hj Hn Hl. apply H; [exact Hj|exact Hn|lia]. Qed.

  Lemma Skips_nil d : Skips d [].
  Proof. intros pre post l e Hj Hn Hl. rewrite app_nil_r. split; [exact Hn|]. exists e. reflexivity. Qed.

  Lemma Skips_app d s1 s2 : Skips d s1 -> Skips d s2 -> Skips d (s1 ++ s2).
  Proof.
    intros H1 H2 pre post l e Hj Hn Hl.
    rewrite <- app_assoc in Hj.
    destruct (H1 pre (s2 ++ post) l e Hj Hn Hl) as [Hn1 [e1 E1]].
    rewrite app_assoc in Hj.
    destruct (H2 (pre ++ s1) post l e1 Hj Hn1 Hl) as [Hn2 [e2 E2]].
    rewrite <- app_assoc in Hn2, E2. split; [exact Hn2|]. exists e2.
    rewrite <- app_assoc. rewrite E1. exact E2.
  Qed.

  Lemma Skips_cons d c s : Skips d [c] -> Skips d s -> Skips d (c :: s).
  Proof. exact (Skips_app d [c] s). Qed.

  Lemma Skips_plain1 d c : plain c = true -> c <> 92 -> Skips d [c].
  Proof.
    intros Hp Hc pre post l e Hj Hn Hl. split; [apply nobs_snoc; exact Hc|]. exists e.
    rewrite length_snoc. apply (H_plain SC); [exact Hj|exact Hp|lia].
  Qed.

  Lemma Skips_plain d s : Forall (fun c => plain c = true /\ c <> 92) s -> Skips d s.
  Proof.
    induction 1 as [|c s [Hp Hc] _ IH]; [apply Skips_nil|].
    apply Skips_cons; [apply Skips_plain1; assumption|exact IH].
  Qed.

  Lemma Skips_ws d w : ws_ok w = true -> Skips d w.
  Proof.
    intro H. apply Skips_plain. apply ws_ok_Forall in H.
    eapply Forall_impl; [|exact H]. intros c Hc. apply ws_plain. exact Hc.
  Qed.

  Lemma Skips_scalar d s : scalar_ok s = true -> Skips d s.
  Proof.
    intro H. apply Skips_plain. apply scalar_ok_inv in H. destruct H as [_ H].
    eapply Forall_impl; [|exact H]. intros c Hc. apply token_plain in Hc. tauto.
  Qed.

  Lemma Skips_sep d c : c = 44 \/ c = 58 -> (1 <= d)%nat -> Skips d [c].
  Proof.
    intros Hc Hd pre post l e Hj Hn Hl.
    split; [apply nobs_snoc; destruct Hc; subst; discriminate|].
    rewrite length_snoc. apply (H_sep SC); [exact Hj|exact Hc|lia].
  Qed.

  Lemma Skips_string d s : str_ok s = true -> Skips d (34 :: s ++ [34]).
  Proof.
    intros Hs pre post l e Hj Hn Hl.
    assert (Hj1 : json = pre ++ 34 :: s ++ 34 :: post).
    { rewrite Hj. cbn [app]. rewrite <- app_assoc. reflexivity. }
    split.
    { rewrite (app_cons_assoc pre 34), app_assoc. apply nobs_snoc. discriminate. }
    destruct (H_openq SC pre (s ++ 34 :: post) l e Hj1 ltac:(lia)) as [e1 E1].
    { rewrite Hj1. apply qscan_nobs. exact Hn. }
    destruct (H_closeq SC (pre ++ 34 :: s) post l e1) as [e2 E2].
    { rewrite <- app_assoc. exact Hj1. }
    { lia. }
    { rewrite Hj1. apply qscan_close. exact Hs. }
    exists e2. cbn [app]. rewrite <- app_assoc. cbn [app]. rewrite E1.
    rewrite (str_skip json R (fun r i => L r i true l e1)) with (pre := pre).
    - cbv beta. rewrite E2. f_equal. rewrite !app_length. cbn [length].
      rewrite app_length. cbn [length]. lia.
    - intros. apply (H_in SC); [assumption|assumption|lia].
    - intros. apply (H_esc SC); [assumption|lia|assumption].
    - exact Hs.
    - exact Hj1.
  Qed.

  Lemma Skips_brace d o s c :
    is_open o = true -> is_close c = true -> Skips (S d) s -> Skips d (o :: s ++ [c]).
  Proof.
    intros Ho Hc Hs pre post l e Hj Hn Hl.
    assert (Ho' : o <> 92) by (unfold is_open in Ho; intros ->; discriminate).
    assert (Hc' : c <> 92) by (unfold is_close in Hc; intros ->; discriminate).
    assert (Hj1 : json = pre ++ o :: s ++ c :: post).
    { rewrite Hj. cbn [app]. rewrite <- app_assoc. reflexivity. }
    split.
    { rewrite (app_cons_assoc pre o), app_assoc. apply nobs_snoc. exact Hc'. }
    destruct (H_open SC pre o (s ++ c :: post) l e Hj1 Ho ltac:(lia)) as [e1 E1].
    destruct (Hs (pre ++ [o]) (c :: post) (S l) e1) as [Hn2 [e2 E2]].
    { rewrite Hj1. rewrite <- app_assoc. reflexivity. }
    { apply nobs_snoc. exact Ho'. }
    { lia. }
    destruct (H_close SC ((pre ++ [o]) ++ s) c post l e2) as [e3 E3].
    { rewrite Hj1. rewrite <- !app_assoc. reflexivity. }
    { exact Hc. }
    { lia. }
    exists e3. cbn [app]. rewrite <- app_assoc. cbn [app]. rewrite E1.
    rewrite length_snoc in E2. rewrite E2, E3. f_equal.
    rewrite !app_length. cbn [length]. rewrite app_length. cbn [length]. lia.
  Qed.

  Lemma Skips_join d xs : (1 <= d)%nat -> Forall (Skips d) xs -> Skips d (join xs).
  Proof.
    intro Hd. induction 1 as [|x xs Hx Hxs IH]; [apply Skips_nil|].
    destruct xs as [|y ys]; [exact Hx|].
    cbn [join]. apply Skips_app; [exact Hx|]. apply Skips_cons; [|exact IH].
    apply Skips_sep; [left; reflexivity|exact Hd].
  Qed.

  Lemma Skips_value v : wf v = true -> Skips 0 (render v).
  Proof.
    induction v as [s|s|w els IH|w ms IH] using jv_ind'; intro Hw; cbn [wf] in Hw; cbn [render].
    - apply Skips_scalar. exact Hw.
    - apply Skips_string. exact Hw.
    - apply andb_true_iff in Hw. destruct Hw as [Hw He].
      rewrite app_assoc. apply Skips_brace; [reflexivity|reflexivity|].
      apply Skips_app; [apply Skips_ws; exact Hw|].
      apply Skips_join; [lia|]. apply Forall_map.
      rewrite Forall_forall in IH |- *. intros e Hin.
      rewrite forallb_forall in He. specialize (He e Hin). specialize (IH e Hin).
      nbool. apply Skips_app; [apply Skips_ws; assumption|].
      apply Skips_app; [|apply Skips_ws; assumption].
      apply Skips_mono with (d := O); [lia|]. apply IH. assumption.
    - apply andb_true_iff in Hw. destruct Hw as [Hw He].
      rewrite app_assoc. apply Skips_brace; [reflexivity|reflexivity|].
      apply Skips_app; [apply Skips_ws; exact Hw|].
      apply Skips_join; [lia|]. apply Forall_map.
      rewrite Forall_forall in IH |- *. intros m Hin.
      rewrite forallb_forall in He. specialize (He m Hin). specialize (IH m Hin).
      nbool. apply Skips_app; [apply Skips_ws; assumption|].
      match goal with |- Skips _ (34 :: ?k ++ 34 :: ?t) =>
        change (Skips 1 (34 :: k ++ [34] ++ t)); rewrite app_assoc; 
        change (Skips 1 ((34 :: k ++ [34]) ++ t)) end.
      apply Skips_app; [apply Skips_string; assumption|].
      apply Skips_app; [apply Skips_ws; assumption|].
      apply Skips_cons; [apply Skips_sep; [right; reflexivity|lia]|].
      apply Skips_app; [apply Skips_ws; assumption|].
      apply Skips_app; [|apply Skips_ws; assumption].
      apply Skips_mono with (d := O); [lia|]. apply IH. assumption.
  Qed.
End Skip.

(** Rendered values end in a byte that is not a backslash, and start with one that is not blank. *)
Lemma nobs_render pre v : wf v = true -> nobs (pre ++ render v).
Proof.
  destruct v as [s|s|w els|w ms]; cbn [wf render]; intro H.
  - apply scalar_ok_inv in H. destruct H as [Hn H]. destruct (exists_last Hn) as (s' & c & ->).
    apply Forall_app in H. destruct H as [_ H]. inversion H; subst.
    rewrite app_assoc. apply nobs_snoc. apply token_plain in H2. tauto.
  - rewrite (app_cons_assoc pre), app_assoc. apply nobs_snoc. discriminate.
  - rewrite (app_cons_assoc pre), !app_assoc. apply nobs_snoc. discriminate.
  - rewrite (app_cons_assoc pre), !app_assoc. apply nobs_snoc. discriminate.
Qed.

Lemma render_cons v : wf v = true -> exists c r, render v = c :: r /\ is_ws c = false.
Proof.
  destruct v as [s|s|w els|w ms]; cbn [wf render]; intro H; try (do 2 eexists; split; reflexivity).
  apply scalar_ok_inv in H. destruct H as [Hn H]. destruct s as [|c s]; [contradiction|].
  inversion H; subst. exists c, s. split; [reflexivity|]. apply token_plain in H2. tauto.
Qed.

Lemma nobs_ws pre w : nobs pre -> ws_ok w = true -> nobs (pre ++ w).
Proof.
  intros Hn Hw. apply nobs_app; [exact Hn|]. apply ws_ok_Forall in Hw.
  eapply Forall_impl; [|exact Hw]. intros c Hc. apply ws_plain in Hc. tauto.
Qed.
