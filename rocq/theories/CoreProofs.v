(** [core] finds the value that the path denotes in the tree: position of the value, of its end, and of
    its key. *)
From Verif Require Import GoStd Json Core Skip Focus.

Local Open Scope N_scope.

Lemma eqb_false (c d : N) : c <> d -> (c =? d) = false.
Proof. apply N.eqb_neq. Qed.

Lemma open_cases c : is_open c = true -> c = 91 \/ c = 123.
Proof. unfold is_open. rewrite orb_true_iff, !N.eqb_eq. tauto. Qed.
Lemma close_cases c : is_close c = true -> c = 93 \/ c = 125.
Proof. unfold is_close. rewrite orb_true_iff, !N.eqb_eq. tauto. Qed.
Lemma plain_not_open c : plain c = true -> is_open c = false.
Proof. intro H. apply plain_neq in H. unfold is_open. rewrite !eqb_false by tauto. reflexivity. Qed.
Lemma plain_not_close c : plain c = true -> is_close c = false.
Proof. intro H. apply plain_neq in H. unfold is_close. rewrite !eqb_false by tauto. reflexivity. Qed.

(** ** The three depth-tracking loops of [core] pass over values *)

Ltac skip_plain H := let H' := fresh in pose proof H as H'; apply plain_neq in H';
  rewrite ?(plain_not_open _ H), ?(plain_not_close _ H), ?eqb_false by tauto; cbn; try reflexivity.

Lemma jump_scan json k :
  scanner json jump_out unit (fun r j q l _ => jump_loop json r j k l q) (S k).
Proof.
  constructor; intros.
  - cbn [jump_loop]. skip_plain H0.
  - cbn [jump_loop]. rewrite (eqb_false c 34) by assumption. reflexivity.
  - cbn [jump_loop]. unfold toggle. rewrite H1. reflexivity.
  - exists tt. cbn [jump_loop]. unfold toggle. rewrite H1. reflexivity.
  - exists tt. cbn [jump_loop]. unfold toggle. rewrite H1. reflexivity.
  - exists tt. apply open_cases in H0. destruct H0; subst c; reflexivity.
  - exists tt. apply close_cases in H0.
    assert (E : (S l <? S k)%nat = false) by (apply Nat.ltb_ge; lia).
    destruct H0; subst c; cbn -[Nat.ltb]; rewrite E; reflexivity.
  - exists tt. assert (E : (l =? S k)%nat = false) by (apply Nat.eqb_neq; lia).
    destruct H0; subst c; cbn -[Nat.eqb]; rewrite ?E; reflexivity.
Qed.

Lemma arr_scan json last target cnt :
  scanner json (res arr_out) unit (fun r i q l _ => arr_loop json r i last target l q false cnt) 1.
Proof.
  constructor; intros.
  - cbn [arr_loop]. pose proof H0 as H'. apply plain_neq in H'.
    rewrite (plain_not_open _ H0), (plain_not_close _ H0), !eqb_false by tauto.
    rewrite andb_false_r. reflexivity.
  - cbn [arr_loop]. rewrite (eqb_false c 34) by assumption. reflexivity.
  - cbn [arr_loop]. unfold toggle. rewrite H1. reflexivity.
  - exists tt. cbn [arr_loop]. unfold toggle. rewrite H1. reflexivity.
  - exists tt. cbn [arr_loop]. unfold toggle. rewrite H1. reflexivity.
  - exists tt. apply open_cases in H0. destruct H0; subst c; cbn -[Nat.eqb];
      rewrite andb_false_r; reflexivity.
  - exists tt. apply close_cases in H0.
    assert (E : (S l <? 2)%nat = false) by (apply Nat.ltb_ge; lia).
    destruct H0; subst c; cbn -[Nat.ltb Nat.eqb]; rewrite andb_false_r, E; reflexivity.
  - exists tt. assert (E : (l =? 1)%nat = false) by (apply Nat.eqb_neq; lia).
    destruct H0; subst c; cbn -[Nat.eqb]; rewrite ?E; reflexivity.
Qed.

Lemma close_scan json :
  scanner json (option nat) unit (fun r i q l _ => close_loop json r i l q) 1.
Proof.
  constructor; intros.
  - cbn [close_loop]. skip_plain H0.
  - cbn [close_loop]. rewrite (eqb_false c 34) by assumption. reflexivity.
  - cbn [close_loop]. unfold toggle. rewrite H1. reflexivity.
  - exists tt. cbn [close_loop]. unfold toggle. rewrite H1. reflexivity.
  - exists tt. cbn [close_loop]. unfold toggle. rewrite H1. reflexivity.
  - exists tt. apply open_cases in H0. destruct H0; subst c; reflexivity.
  - exists tt. apply close_cases in H0.
    assert (E : (S l =? 1)%nat = false) by (apply Nat.eqb_neq; lia).
    destruct H0; subst c; cbn -[Nat.eqb]; rewrite E; reflexivity.
  - exists tt. destruct H0; subst c; reflexivity.
Qed.

(** ** Array search *)

Lemma app_len {A} (p q : list A) n : n = (length p + length q)%nat -> n = length (p ++ q).
Proof. rewrite app_length. auto. Qed.

Ltac len := rewrite ?app_length; cbn [length]; rewrite ?app_length; cbn [length];
            rewrite ?app_length; cbn [length]; rewrite ?app_length; cbn [length];
            rewrite ?app_length; cbn [length]; lia.
Ltac lassoc := repeat (rewrite <- ?app_assoc; cbn [app]).
Ltac same_text := lassoc; reflexivity.

Lemma arr_pass json last target pre l rest cnt :
  forallb elem_ok l = true ->
  json = pre ++ jpre (map elem_text l) ++ rest -> nobs pre ->
  (forall j, (cnt < j <= cnt + length l)%nat -> Z.of_nat j <> target) ->
  arr_loop json (jpre (map elem_text l) ++ rest) (length pre) last target 1 false false cnt =
  arr_loop json rest (length (pre ++ jpre (map elem_text l))) last target 1 false false (cnt + length l).
Proof.
  revert pre cnt. induction l as [|e l IH]; intros pre cnt Hok Hj Hn Ht.
  - cbn [map]. change (jpre []) with (@nil N). rewrite app_nil_r. cbn [length app].
    rewrite Nat.add_0_r. reflexivity.
  - cbn [forallb] in Hok. nbool. cbn [map] in *. rewrite jpre_cons in *.
    destruct (Skips_elem _ _ _ _ _ (arr_scan json last target cnt) 0 e H pre
                (44 :: jpre (map elem_text l) ++ rest) 1%nat tt) as [Hn1 [[] E1]].
    { rewrite Hj. same_text. }
    { exact Hn. }
    { lia. }
    transitivity (arr_loop json (elem_text e ++ 44 :: jpre (map elem_text l) ++ rest) (length pre)
                           last target 1 false false cnt).
    { f_equal. same_text. }
    rewrite E1. cbn [arr_loop].
    change (44 =? 34) with false. change (44 =? 44) with true. cbn [negb andb Nat.eqb].
    replace (Z.of_nat (S cnt) =? target)%Z with false.
    2:{ symmetry. apply Z.eqb_neq. apply Ht. cbn [length]. lia. }
    rewrite <- (length_snoc _ 44). rewrite IH.
    + f_equal; [len|cbn [length]; lia].
    + assumption.
    + rewrite Hj. same_text.
    + apply nobs_snoc. discriminate.
    + intros j Hjj. apply Ht. cbn [length]. lia.
Qed.

(** [next_nonspace] sees the first byte of a value. *)
Lemma next_nonspace_ws w c r : ws_ok w = true -> is_ws c = false -> next_nonspace (w ++ c :: r) = Some c.
Proof.
  intros Hw Hc. apply ws_ok_Forall in Hw. induction Hw as [|d w Hd Hw IH]; cbn.
  - rewrite <- is_ws_space, Hc. reflexivity.
  - rewrite <- is_ws_space, Hd. exact IH.
Qed.

Lemma skip_space_ws w c r i :
  ws_ok w = true -> is_ws c = false -> skip_space (w ++ c :: r) i = Ok (i + length w)%nat.
Proof.
  intros Hw Hc. apply ws_ok_Forall in Hw. revert i. induction Hw as [|d w Hd Hw IH]; intro i; cbn.
  - rewrite <- is_ws_space, Hc. f_equal. lia.
  - rewrite <- is_ws_space, Hd. rewrite IH. f_equal. lia.
Qed.

(** Finding element [length l1] (not the first one): the comma before it.  Only the first byte [c] of the
    element is looked at. *)
Lemma arr_found_at json last pre l1 x w c rest :
  forallb elem_ok (l1 ++ [x]) = true -> ws_ok w = true -> is_ws c = false ->
  json = pre ++ jpre (map elem_text (l1 ++ [x])) ++ w ++ c :: rest -> nobs pre ->
  arr_loop json (jpre (map elem_text (l1 ++ [x])) ++ w ++ c :: rest) (length pre)
           last (Z.of_nat (length (l1 ++ [x]))) 1 false false 0 =
  if last then Ok (ALast (length (pre ++ jpre (map elem_text (l1 ++ [x])))))
  else if is_open c then Ok (ABrace (length (pre ++ jpre (map elem_text (l1 ++ [x])) ++ w)) c)
       else Err EIndexOutOfRange.
Proof.
  intros Hok Hww Hc Hj Hn. rewrite forallb_app in Hok. cbn [forallb] in Hok.
  apply andb_true_iff in Hok. destruct Hok as [Hok1 Hokx]. rewrite andb_true_r in Hokx.
  rewrite map_app, jpre_app in *. cbn [map] in *. rewrite jpre_cons in *.
  change (jpre []) with (@nil N) in *.
  set (T := Z.of_nat (length (l1 ++ [x]))). 
  set (tail := w ++ c :: rest) in *.
  transitivity (arr_loop json (jpre (map elem_text l1) ++ elem_text x ++ 44 :: tail) (length pre)
                         last T 1 false false 0).
  { f_equal. same_text. }
  assert (Hj1 : json = pre ++ jpre (map elem_text l1) ++ elem_text x ++ 44 :: tail)
    by (rewrite Hj; same_text).
  rewrite arr_pass; [|exact Hok1|exact Hj1|exact Hn|].
  2:{ intros j Hjj. unfold T. rewrite app_length. cbn [length]. lia. }
  set (pre1 := pre ++ jpre (map elem_text l1)) in *.
  assert (Hn1 : nobs pre1).
  { unfold pre1. clear -Hn Hok1. destruct l1 as [|y l1] using rev_ind.
    - cbn. rewrite app_nil_r. exact Hn.
    - rewrite map_app, jpre_app. cbn [map]. rewrite jpre_cons. change (jpre []) with (@nil N).
      rewrite !app_assoc. apply nobs_snoc. discriminate. }
  assert (Hj2 : json = pre1 ++ elem_text x ++ 44 :: tail) by (rewrite Hj1; unfold pre1; same_text).
  destruct (Skips_elem _ _ _ _ _ (arr_scan json last T (0 + length l1)) 0 x Hokx pre1
              (44 :: tail) 1%nat tt Hj2 Hn1 ltac:(lia)) as [Hn2 [[] E1]].
  rewrite E1. cbn [arr_loop].
  change (44 =? 34) with false. change (44 =? 44) with true. cbn [negb andb Nat.eqb].
  replace (Z.of_nat (S (0 + length l1)) =? T)%Z with true.
  2:{ symmetry. apply Z.eqb_eq. unfold T. rewrite app_length. cbn [length]. lia. }
  unfold tail. rewrite (next_nonspace_ws _ _ _ Hww Hc).
  destruct last.
  - rewrite andb_false_r. f_equal. f_equal. unfold pre1. len.
  - rewrite andb_true_r. destruct (is_open c) eqn:Eo; [|reflexivity]. cbn [negb].
    assert (Hgo : forall w i cnt, ws_ok w = true ->
      arr_loop json (w ++ c :: rest) i false T 1 false true cnt = Ok (ABrace (i + length w) c)).
    { clear -Eo. intros w i cnt Hw. apply ws_ok_Forall in Hw. revert i.
      induction Hw as [|d w Hd Hw IH]; intro i.
      - cbn [app length arr_loop]. apply open_cases in Eo.
        destruct Eo; subst c; cbn; do 2 f_equal; lia.
      - cbn [app arr_loop]. apply ws_plain in Hd. destruct Hd as [Hd _].
        pose proof Hd as Hd'. apply plain_neq in Hd'.
        rewrite (plain_not_open _ Hd), (plain_not_close _ Hd), !eqb_false by tauto.
        cbn [negb andb]. rewrite IH. do 2 f_equal. cbn [length]. lia. }
    rewrite Hgo by assumption. do 2 f_equal. unfold pre1. len.
Qed.

Lemma arr_found json last pre l1 x e rest :
  forallb elem_ok (l1 ++ [x]) = true -> elem_ok e = true ->
  json = pre ++ jpre (map elem_text (l1 ++ [x])) ++ e_pre e ++ render (e_val e) ++ rest -> nobs pre ->
  arr_loop json (jpre (map elem_text (l1 ++ [x])) ++ e_pre e ++ render (e_val e) ++ rest) (length pre)
           last (Z.of_nat (length (l1 ++ [x]))) 1 false false 0 =
  if last then Ok (ALast (length (pre ++ jpre (map elem_text (l1 ++ [x])))))
  else match render (e_val e) with
       | c :: _ => if is_open c
                   then Ok (ABrace (length (pre ++ jpre (map elem_text (l1 ++ [x])) ++ e_pre e)) c)
                   else Err EIndexOutOfRange
       | [] => Err EIndexOutOfRange
       end.
Proof.
  intros Hok Hoke Hj Hn. unfold elem_ok in Hoke. nbool.
  destruct (render_cons _ H1) as (c & r & Ec & Hc). rewrite Ec in *. cbn [app] in *.
  apply arr_found_at; assumption.
Qed.

(** Index beyond the last element, or negative. *)
Lemma arr_missing json last target pre w els post :
  ws_ok w = true -> forallb elem_ok els = true ->
  json = pre ++ render (JArr w els) ++ post ->
  target <> 0%Z -> nth_z els target = None ->
  arr_loop json (render (JArr w els) ++ post) (length pre) last target 0 false false 0 =
  Err EIndexOutOfRange.
Proof.
  intros Hw Hok Hj Ht Hnth. rewrite render_arr in *. cbn [app] in Hj.
  cbn [app]. cbn [arr_loop]. change (91 =? 34) with false. change (is_open 91) with true.
  change (91 =? 44) with false. rewrite andb_false_r.
  assert (Hnj : forall j, (0 < j < length els)%nat -> Z.of_nat j <> target).
  { intros j Hjj Heq. subst target. revert Hnth. unfold nth_z.
    replace ((0 <=? Z.of_nat j) && (Z.of_nat j <? Z.of_nat (length els)))%Z with true.
    2:{ symmetry. apply andb_true_iff. split; [apply Z.leb_le|apply Z.ltb_lt]; lia. }
    rewrite Nat2Z.id. rewrite nth_error_None. lia. }
  assert (Hpre : nobs (pre ++ [91])) by (apply nobs_snoc; discriminate).
  rewrite <- (length_snoc pre 91).
  lassoc.
  destruct (Skips_ws _ _ _ _ _ (arr_scan json last target 0) 0 w Hw (pre ++ [91])
              (join (map elem_text els) ++ 93 :: post) 1%nat tt) as [Hn1 [[] E1]].
  { rewrite Hj. same_text. }
  { exact Hpre. }
  { lia. }
  rewrite E1.
  destruct els as [|e0 els0] using rev_ind.
  - cbn [map join app]. cbn. reflexivity.
  - clear IHels0. rewrite map_app in *. cbn [map] in *. rewrite join_split in *.
    change (jpost []) with (@nil N) in *. rewrite forallb_app in Hok. cbn [forallb] in Hok.
    nbool.
    transitivity (arr_loop json (jpre (map elem_text els0) ++ elem_text e0 ++ 93 :: post)
                           (length ((pre ++ [91]) ++ w)) last target 1 false false 0).
    { f_equal. same_text. }
    rewrite arr_pass.
    + destruct (Skips_elem _ _ _ _ _ (arr_scan json last target (0 + length els0)) 0 e0 H0
              (((pre ++ [91]) ++ w) ++ jpre (map elem_text els0)) (93 :: post) 1%nat tt) as [Hn2 [[] E2]].
      { rewrite Hj. same_text. }
      { destruct els0 as [|y els1] using rev_ind.
        - cbn. rewrite app_nil_r. exact Hn1.
        - rewrite map_app, jpre_app. cbn [map]. rewrite jpre_cons. change (jpre []) with (@nil N).
          rewrite !app_assoc. apply nobs_snoc. discriminate. }
      { lia. }
      rewrite E2. cbn. reflexivity.
    + assumption.
    + rewrite Hj. same_text.
    + exact Hn1.
    + intros j Hjj. apply Hnj. rewrite app_length. cbn [length]. lia.
Qed.

(** Index 0. *)
Lemma arr0_ws w c r i last :
  ws_ok w = true -> is_ws c = false ->
  arr0_loop (w ++ c :: r) i last =
  if is_open c then Ok (Some ((i + length w)%nat, c)) else if last then Ok None else Err EIndexOutOfRange.
Proof.
  intros Hw Hc. apply ws_ok_Forall in Hw. revert i. induction Hw as [|d w Hd Hw IH]; intro i; cbn.
  - rewrite <- is_ws_space, Hc. rewrite Nat.add_0_r. reflexivity.
  - rewrite <- is_ws_space, Hd, IH. replace (S i + length w)%nat with (i + S (length w))%nat by lia.
    reflexivity.
Qed.

(** ** Key search *)

Lemma key_resume json path rest i resume k level found inq s e st :
  (resume <= i)%nat ->
  key_loop json path rest i resume k level found inq s e st =
  key_loop json path rest i 0 k level found inq s e st.
Proof.
  revert i resume k level found inq s e st.
  induction rest as [|c r IH]; intros i resume k level found inq s e st H; [reflexivity|].
  cbn [key_loop].
  replace (i <? resume)%nat with false by (symmetry; apply Nat.ltb_ge; lia).
  replace (i <? 0)%nat with false by reflexivity.
  assert (IH' : forall k level found inq s e st,
    key_loop json path r (S i) resume k level found inq s e st =
    key_loop json path r (S i) 0 k level found inq s e st) by (intros; apply IH; lia).
  repeat (rewrite ?IH';
          match goal with
          | |- (if ?x then _ else _) = _ => destruct x
          | |- match ?x with _ => _ end = _ => destruct x
          | |- _ => try reflexivity
          end).
Qed.

Lemma key_jumped json path mid rest i resume k level found inq s e st :
  resume = (i + length mid)%nat ->
  key_loop json path (mid ++ rest) i resume k level found inq s e st =
  key_loop json path rest resume 0 k level found inq s e st.
Proof.
  revert i. induction mid as [|c m IH]; intros i ->.
  - cbn [app length]. rewrite Nat.add_0_r. apply key_resume. lia.
  - cbn [app key_loop length].
    replace (i <? i + S (length m))%nat with true by (symmetry; apply Nat.ltb_lt; lia).
    apply IH. cbn [length]; lia.
Qed.

(** Bytes the key search ignores. *)
Definition kplain (c : N) : bool :=
  negb ((c =? 34) || (c =? 58) || (c =? 91) || (c =? 93) || (c =? 123) || (c =? 125)).

Lemma plain_kplain c : plain c = true -> kplain c = true.
Proof. intro H. apply plain_neq in H. unfold kplain. rewrite !eqb_false by tauto. reflexivity. Qed.

Lemma key_plain1 json path c r i k level found inq s e st :
  kplain c = true ->
  key_loop json path (c :: r) i 0 k level found inq s e st =
  key_loop json path r (S i) 0 k level found inq s e st.
Proof.
  unfold kplain. intro H. apply negb_true_iff in H. repeat (apply orb_false_iff in H; destruct H as [H ?]).
  cbn [key_loop]. change (i <? 0)%nat with false. unfold is_close.
  repeat match goal with E : (c =? _) = false |- _ => rewrite E; clear E end.
  destruct inq; [reflexivity|]. rewrite andb_false_r. reflexivity.
Qed.

Lemma key_plain json path w r i k level found inq s e st :
  Forall (fun c => kplain c = true) w ->
  key_loop json path (w ++ r) i 0 k level found inq s e st =
  key_loop json path r (i + length w) 0 k level found inq s e st.
Proof.
  intro H. revert i. induction H as [|c w Hc Hw IH]; intro i.
  - cbn. rewrite Nat.add_0_r. reflexivity.
  - cbn [app]. rewrite key_plain1 by assumption. rewrite IH. f_equal. cbn [length]. lia.
Qed.

Lemma ws_kplain w : ws_ok w = true -> Forall (fun c => kplain c = true) w.
Proof.
  intro H. apply ws_ok_Forall in H. eapply Forall_impl; [|exact H].
  intros c Hc. apply plain_kplain. apply ws_plain in Hc. tauto.
Qed.

Lemma key_ws json path w r i k level found inq s e st :
  ws_ok w = true ->
  key_loop json path (w ++ r) i 0 k level found inq s e st =
  key_loop json path r (i + length w) 0 k level found inq s e st.
Proof. intro H. apply key_plain. apply ws_kplain. exact H. Qed.

(** A string at the level of the search sets [start] and [end]. *)
Lemma key_string json path pre s rest k st s0 e0 :
  str_ok s = true -> nobs pre -> json = pre ++ 34 :: s ++ 34 :: rest ->
  key_loop json path (34 :: s ++ 34 :: rest) (length pre) 0 k (S k) false false s0 e0 st =
  key_loop json path rest (length (pre ++ 34 :: s ++ [34])) 0 k (S k) false false
           (S (length pre)) (length (pre ++ 34 :: s)) st.
Proof.
  intros Hs Hn Hj. cbn [key_loop]. change (length pre <? 0)%nat with false.
  change (34 =? 34) with true. rewrite Nat.eqb_refl. cbn [negb].
  assert (Hq : qscan json (length pre) = Some true) by (rewrite Hj; apply qscan_nobs; exact Hn).
  rewrite Hq. cbn [negb].
  pose proof (str_skip json _ (fun r i => key_loop json path r i 0 k (S k) false true (S (length pre)) e0 st))
    as Hskip. cbv beta in Hskip.
  rewrite (Hskip) with (pre := pre).
  - cbn [key_loop]. change (length (pre ++ 34%N :: s) <? 0)%nat with false.
    change (34 =? 34) with true. rewrite Nat.eqb_refl. cbn [negb].
    assert (Hq2 : qscan json (length (pre ++ 34 :: s)) = Some true)
      by (rewrite Hj; apply qscan_close; exact Hs).
    rewrite Hq2. cbn [negb]. f_equal. len.
  - intros p c r Hjj Hc. cbn [key_loop]. change (length p <? 0)%nat with false.
    rewrite (eqb_false c 34) by exact Hc. reflexivity.
  - intros p r Hjj Hq'. cbn [key_loop]. change (length p <? 0)%nat with false.
    change (34 =? 34) with true. rewrite Nat.eqb_refl. cbn [negb]. rewrite Hq'. reflexivity.
  - exact Hs.
  - exact Hj.
Qed.

Lemma key_match_spec pre key rest c :
  key_match (pre ++ key ++ rest) c (length pre) (length (pre ++ key)) = bytes_eqb key c.
Proof.
  unfold key_match. rewrite skipn_length_app. rewrite app_length.
  destruct (Nat.eqb_spec (length pre + length c) (length pre + length key)) as [E|E].
  - replace (length c) with (length key) by lia. rewrite firstn_length_app. reflexivity.
  - cbn. symmetry. apply bytes_eqb_neq. intros ->. apply E. reflexivity.
Qed.

(** From the start of a member to its colon, where the key is compared. *)
Definition mem_head (m : mem jv) : bytes := m_pre m ++ 34 :: m_key m ++ 34 :: m_mid m.
Definition mem_tail (m : mem jv) : bytes := m_mid2 m ++ render (m_val m) ++ m_post m.

Lemma mem_text_split m : mem_text m = mem_head m ++ 58 :: mem_tail m.
Proof. unfold mem_text, mem_head, mem_tail. same_text. Qed.

Lemma key_head json path pre m rest k st s0 e0 :
  mem_ok m = true -> nobs pre -> json = pre ++ mem_head m ++ rest ->
  key_loop json path (mem_head m ++ rest) (length pre) 0 k (S k) false false s0 e0 st =
  key_loop json path rest (length (pre ++ mem_head m)) 0 k (S k) false false
           (length (pre ++ m_pre m ++ [34])) (length (pre ++ m_pre m ++ 34 :: m_key m)) st.
Proof.
  intros Hok Hn Hj. unfold mem_ok in Hok. nbool. unfold mem_head in *.
  rewrite <- app_assoc. rewrite key_ws by assumption. rewrite <- app_length.
  transitivity (key_loop json path (34 :: m_key m ++ 34 :: m_mid m ++ rest) (length (pre ++ m_pre m)) 0
                         k (S k) false false s0 e0 st).
  { f_equal. same_text. }
  rewrite key_string.
  - rewrite key_ws by assumption. f_equal; len.
  - assumption.
  - apply nobs_ws; assumption.
  - rewrite Hj. same_text.
Qed.

Lemma key_colon json path pre m rest k st :
  json = pre ++ mem_head m ++ 58 :: rest ->
  key_loop json path (58 :: rest) (length (pre ++ mem_head m)) 0 k (S k) false false
           (length (pre ++ m_pre m ++ [34])) (length (pre ++ m_pre m ++ 34 :: m_key m)) st =
  if bytes_eqb (m_key m) (cur st) then
    if (S k =? length path)%nat then
      Ok (k, CSt (S (length (pre ++ mem_head m))) (brace st) (cur st) (Some (length (pre ++ m_pre m ++ [34]))))
    else key_loop json path rest (S (length (pre ++ mem_head m))) 0 k (S k) true false
           (length (pre ++ m_pre m ++ [34])) (length (pre ++ m_pre m ++ 34 :: m_key m))
           (CSt (S (length (pre ++ mem_head m))) (brace st) (cur st) (keyst st))
  else match jump_loop json rest (S (length (pre ++ mem_head m))) k (S k) false with
       | JComma j => key_loop json path rest (S (length (pre ++ mem_head m))) (S j) k (S k) false false
           (length (pre ++ m_pre m ++ [34])) (length (pre ++ m_pre m ++ 34 :: m_key m)) st
       | JFail => Err (EKeyNotFound (cur st))
       | JEnd inq' => key_loop json path rest (S (length (pre ++ mem_head m))) 0 k (S k) false inq'
           (length (pre ++ m_pre m ++ [34])) (length (pre ++ m_pre m ++ 34 :: m_key m)) st
       end.
Proof.
  intro Hj. cbn [key_loop].
  match goal with |- context [(?x <? 0)%nat] => change (x <? 0)%nat with false end.
  change (58 =? 34) with false. change (58 =? 58) with true. rewrite Nat.eqb_refl. cbn [andb].
  replace (key_match json (cur st) (length (pre ++ m_pre m ++ [34]))
                     (length (pre ++ m_pre m ++ 34 :: m_key m))) with (bytes_eqb (m_key m) (cur st)).
  2:{ replace (pre ++ m_pre m ++ 34 :: m_key m) with ((pre ++ m_pre m ++ [34]) ++ m_key m) by same_text.
      replace json with ((pre ++ m_pre m ++ [34]) ++ m_key m ++ (34 :: m_mid m ++ 58 :: rest))
        by (rewrite Hj; unfold mem_head; same_text).
      symmetry. apply key_match_spec. }
  reflexivity.
Qed.

(** A member whose key does not match, followed by a comma. *)
Lemma key_mismatch json path pre m rest k st s0 e0 :
  mem_ok m = true -> nobs pre -> json = pre ++ mem_text m ++ 44 :: rest -> m_key m <> cur st ->
  exists s1 e1,
  key_loop json path (mem_text m ++ 44 :: rest) (length pre) 0 k (S k) false false s0 e0 st =
  key_loop json path rest (length (pre ++ mem_text m ++ [44])) 0 k (S k) false false s1 e1 st.
Proof.
  intros Hok Hn Hj Hk. do 2 eexists.
  rewrite mem_text_split in *. 
  transitivity (key_loop json path (mem_head m ++ 58 :: mem_tail m ++ 44 :: rest) (length pre) 0
                         k (S k) false false s0 e0 st).
  { f_equal. same_text. }
  assert (Hj1 : json = pre ++ mem_head m ++ 58 :: mem_tail m ++ 44 :: rest) by (rewrite Hj; same_text).
  rewrite key_head by assumption. rewrite key_colon by assumption.
  apply bytes_eqb_neq in Hk. rewrite Hk.
  assert (Ht : Skips json _ unit (fun r j q l _ => jump_loop json r j k l q) (S k) 0 (mem_tail m)).
  { unfold mem_ok in Hok. nbool. pose proof (jump_scan json k) as SC. unfold mem_tail.
    apply Skips_app; [eapply Skips_ws; eassumption|].
    apply Skips_app; [eapply Skips_val; eassumption|eapply Skips_ws; eassumption]. }
  destruct (Ht ((pre ++ mem_head m) ++ [58]) (44 :: rest) (S k) tt) as [Hn2 [[] E]].
  { rewrite Hj1. same_text. }
  { apply nobs_snoc. discriminate. }
  { lia. }
  rewrite length_snoc in E. rewrite E. cbn [jump_loop].
  change (44 =? 34) with false. change (is_open 44) with false. change (is_close 44) with false.
  change (44 =? 44) with true. rewrite Nat.eqb_refl.
  replace (mem_tail m ++ 44 :: rest) with ((mem_tail m ++ [44]) ++ rest) by same_text.
  rewrite key_jumped by len. f_equal. len.
Qed.

Lemma nobs_jpre pre l : nobs pre -> nobs (pre ++ jpre l).
Proof.
  intro Hn. destruct l as [|y l1] using rev_ind.
  - cbn. rewrite app_nil_r. exact Hn.
  - rewrite jpre_app, jpre_cons. change (jpre []) with (@nil N).
    rewrite !app_assoc. apply nobs_snoc. discriminate.
Qed.

Lemma key_mismatches json path l pre rest k st s0 e0 :
  forallb mem_ok l = true -> nobs pre -> json = pre ++ jpre (map mem_text l) ++ rest ->
  nokey (cur st) l ->
  exists s1 e1,
  key_loop json path (jpre (map mem_text l) ++ rest) (length pre) 0 k (S k) false false s0 e0 st =
  key_loop json path rest (length (pre ++ jpre (map mem_text l))) 0 k (S k) false false s1 e1 st.
Proof.
  revert pre s0 e0. induction l as [|m l IH]; intros pre s0 e0 Hok Hn Hj Hk.
  - exists s0, e0. cbn [map]. change (jpre []) with (@nil N). rewrite app_nil_r. reflexivity.
  - cbn [map] in *. rewrite jpre_cons in *. cbn [forallb] in Hok. nbool. inversion Hk; subst.
    destruct (key_mismatch (pre ++ (mem_text m ++ 44 :: jpre (map mem_text l)) ++ rest) path pre m
                (jpre (map mem_text l) ++ rest) k st s0 e0) as (s1 & e1 & E1).
    { assumption. } { assumption. } { same_text. } { assumption. }
    destruct (IH (pre ++ mem_text m ++ [44]) s1 e1) as (s2 & e2 & E2).
    { assumption. } { rewrite app_assoc. apply nobs_snoc. discriminate. } { same_text. } { assumption. }
    exists s2, e2.
    replace ((mem_text m ++ 44 :: jpre (map mem_text l)) ++ rest)
      with (mem_text m ++ 44 :: jpre (map mem_text l) ++ rest) at 2 by same_text.
    rewrite E1, E2. f_equal. len.
Qed.

(** Reaching the colon of the first member with the wanted key. *)
Lemma key_found json path pre w l1 m rest k st s0 e0 :
  ws_ok w = true -> forallb mem_ok l1 = true -> mem_ok m = true -> nobs pre ->
  json = pre ++ w ++ jpre (map mem_text l1) ++ mem_head m ++ 58 :: rest ->
  nokey (m_key m) l1 -> cur st = m_key m ->
  let p := pre ++ w ++ jpre (map mem_text l1) in
  key_loop json path (w ++ jpre (map mem_text l1) ++ mem_head m ++ 58 :: rest) (length pre) 0 k (S k)
           false false s0 e0 st =
    if (S k =? length path)%nat then
      Ok (k, CSt (S (length (p ++ mem_head m))) (brace st) (cur st) (Some (length (p ++ m_pre m ++ [34]))))
    else key_loop json path rest (S (length (p ++ mem_head m))) 0 k (S k) true false
           (length (p ++ m_pre m ++ [34])) (length (p ++ m_pre m ++ 34 :: m_key m))
           (CSt (S (length (p ++ mem_head m))) (brace st) (cur st) (keyst st)).
Proof.
  intros Hw Hok1 Hokm Hn Hj Hk Hc.
  rewrite key_ws by assumption. rewrite <- app_length.
  destruct (key_mismatches json path l1 (pre ++ w) (mem_head m ++ 58 :: rest) k st s0 e0)
    as (s1 & e1 & E1).
  { assumption. } { apply nobs_ws; assumption. } { rewrite Hj. same_text. } { rewrite Hc. assumption. }
  cbv zeta. rewrite E1.
  set (p := (pre ++ w) ++ jpre (map mem_text l1)).
  replace (pre ++ w ++ jpre (map mem_text l1)) with p by (unfold p; same_text).
  rewrite key_head.
  - rewrite key_colon by (rewrite Hj; unfold p; same_text).
    rewrite Hc, bytes_eqb_refl. reflexivity.
  - assumption.
  - unfold p. apply nobs_jpre. apply nobs_ws; assumption.
  - rewrite Hj. unfold p. same_text.
Qed.

(** ** The outer loop *)

Definition OUT (json : bytes) (path : list bytes) (k : nat) (st : cst) : res cst :=
  outer json path (skipn k path) k 0 st.

Lemma outer_resume json path todo k r st : (r <= k)%nat -> outer json path todo k r st = outer json path todo k 0 st.
Proof.
  revert k st. induction todo as [|x todo IH]; intros k st H; [reflexivity|].
  cbn [outer]. replace (k <? r)%nat with false by (symmetry; apply Nat.ltb_ge; lia).
  change (k <? 0)%nat with false. destruct (brace st =? 91).
  - destruct (arr_step json path k st); cbn; try reflexivity. apply IH. lia.
  - reflexivity.
Qed.

Lemma outer_skip json path k r st :
  (k <= r)%nat -> outer json path (skipn k path) k r st = OUT json path r st.
Proof.
  intro H. remember (r - k)%nat as n eqn:Hn. revert k H Hn.
  induction n as [|n IH]; intros k H Hn.
  - assert (k = r) by lia. subst k. apply outer_resume. lia.
  - destruct (skipn k path) as [|x todo] eqn:E.
    + unfold OUT. replace (skipn r path) with (@nil bytes); [reflexivity|].
      symmetry. apply skipn_all2. assert (length (skipn k path) = 0)%nat by (rewrite E; reflexivity).
      rewrite skipn_length in H0. lia.
    + cbn [outer]. replace (k <? r)%nat with true by (symmetry; apply Nat.ltb_lt; lia).
      replace todo with (skipn (S k) path). { apply IH; lia. }
      change (skipn (S k) path) with (skipn (1 + k) path). rewrite <- (Nat.add_comm k 1).
      replace todo with (skipn 1 (x :: todo)) by reflexivity. rewrite <- E.
      clear. revert k. induction path as [|y l IH]; intro k; [rewrite !skipn_nil; reflexivity|].
      destruct k; [reflexivity|]. cbn [skipn Nat.add]. apply IH.
Qed.

Lemma key_loop_ge json path rest i resume k level found inq s e st k' st' :
  key_loop json path rest i resume k level found inq s e st = Ok (k', st') -> (k <= k')%nat.
Proof.
  revert i resume k level found inq s e st.
  induction rest as [|c r IH]; intros i resume k level found inq s e st; cbn [key_loop]; intro H.
  - destruct found; [|discriminate]. injection H. intros _ ->. lia.
  - repeat match type of H with
           | (if ?x then _ else _) = _ => destruct x
           | match ?x with _ => _ end = _ => destruct x
           | Ok _ = Ok _ => injection H as <- <-; lia
           | Err _ = _ => discriminate
           | Panic = _ => discriminate
           | key_loop _ _ _ _ _ (S k) _ _ _ _ _ _ = _ => apply IH in H; lia
           | key_loop _ _ _ _ _ _ _ _ _ _ _ _ = _ => apply IH in H; exact H
           end.
Qed.

(** The key search followed by the rest of the outer loop. *)
Definition RK json path rest i k level found inq s e st : res cst :=
  bind (key_loop json path rest i 0 k level found inq s e st)
       (fun '(k', st') => OUT json path (S k') st').

Lemma OUT_end json path k st : (length path <= k)%nat -> OUT json path k st = Ok st.
Proof. intro H. unfold OUT. rewrite skipn_all2 by lia. reflexivity. Qed.

Lemma skipn_cons_nth {A} (l : list A) k : (k < length l)%nat ->
  exists x, skipn k l = x :: skipn (S k) l /\ nth_error l k = Some x.
Proof.
  revert k. induction l as [|y l IH]; intros k H; [cbn in H; lia|].
  destruct k; [exists y; split; reflexivity|].
  cbn [length] in H. destruct (IH k ltac:(lia)) as (x & E & E2). exists x. split; [|exact E2]. exact E.
Qed.

Lemma OUT_arr json path k st : (k < length path)%nat -> brace st = 91 ->
  OUT json path k st = bind (arr_step json path k st) (OUT json path (S k)).
Proof.
  intros Hk Hb. unfold OUT at 1. destruct (skipn_cons_nth path k Hk) as (x & E & _). rewrite E.
  cbn [outer]. change (k <? 0)%nat with false. rewrite Hb. change (91 =? 91) with true. reflexivity.
Qed.

Lemma OUT_key json path k st : (k < length path)%nat -> brace st <> 91 ->
  OUT json path k st = RK json path (skipn (offset st) json) (offset st) k k false false 0 0 st.
Proof.
  intros Hk Hb. unfold OUT at 1. destruct (skipn_cons_nth path k Hk) as (x & E & _). rewrite E.
  cbn [outer]. change (k <? 0)%nat with false. rewrite (eqb_false _ _ Hb). unfold RK.
  destruct (key_loop json path (skipn (offset st) json) (offset st) 0 k k false false 0 0 st)
    as [[k' st']| |] eqn:EK; cbn [bind]; try reflexivity.
  apply outer_skip. apply key_loop_ge in EK. lia.
Qed.

(** ** Being at a container *)


(** The key marks of the scan: each is unset, or the start follows a quote and the end is at one. *)
Definition marks (json : bytes) (s e : nat) : Prop :=
  (s = O \/ exists s', s = S s' /\ nth_error json s' = Some 34) /\ (e = O \/ nth_error json e = Some 34).

(** [AtC r k pre c post]: the computation [r] is the scan standing at the container [c], located
    after [pre], about to look for path element [k] in it. *)
Definition AtC (json : bytes) (path : list bytes) (r : res cst) (k : nat) (pre : bytes) (c : jv)
           (post : bytes) : Prop :=
  json = pre ++ render c ++ post /\
  match c with
  | JArr _ _ => r = OUT json path k (CSt (length pre) 91 (nth k path []) None)
  | JObj w ms => exists s e o br, br <> 91 /\ marks json s e /\
      r = RK json path (w ++ join (map mem_text ms) ++ 125 :: post) (S (length pre)) k (S k)
             false false s e (CSt o br (nth k path []) None)
  | _ => False
  end.

Lemma AtC_enter json path k pre c post :
  (k < length path)%nat -> container c = true -> json = pre ++ render c ++ post ->
  AtC json path (OUT json path k (CSt (length pre) (hd 0 (render c)) (nth k path []) None)) k pre c post.
Proof.
  intros Hk Hc Hj. split; [exact Hj|]. destruct c as [s|s|w els|w ms]; try discriminate Hc.
  - reflexivity.
  - rewrite render_obj in Hj |- *. cbn [hd]. exists O, O, (length pre), 123. split; [discriminate|].
    split; [split; left; reflexivity|].
    rewrite OUT_key; [|exact Hk|cbn; discriminate]. cbn [offset].
    assert (Hs : skipn (length pre) json = 123 :: w ++ join (map mem_text ms) ++ 125 :: post).
    { rewrite Hj, skipn_length_app. same_text. }
    rewrite Hs. unfold RK. cbn [key_loop]. change (length pre <? 0)%nat with false.
    change (123 =? 34) with false. change (123 =? 58) with false. rewrite andb_false_r.
    change (123 =? 91) with false. change (123 =? 123) with true. reflexivity.
Qed.

Lemma nth_error_nth' {A} (l : list A) k d : (k < length l)%nat -> nth_error l k = Some (nth k l d).
Proof.
  revert k. induction l as [|x l IH]; intros k H; cbn in H; [lia|].
  destruct k; cbn; [reflexivity|]. apply IH. lia.
Qed.

Lemma render_container_hd c : container c = true -> is_open (hd 0 (render c)) = true /\
  exists r, render c = hd 0 (render c) :: r.
Proof. destruct c; try discriminate; intros _; cbn; split; try reflexivity; eexists; reflexivity. Qed.

(** Step into a container element of an array. *)
Lemma AtC_arr_step json path r k pre w l1 e l2 post :
  wf (JArr w (l1 ++ e :: l2)) = true -> (S k < length path)%nat ->
  atoi (nth k path []) = Some (Z.of_nat (length l1)) -> container (e_val e) = true ->
  AtC json path r k pre (JArr w (l1 ++ e :: l2)) post ->
  AtC json path r (S k) (pre ++ arr_pre w l1 e) (e_val e) (arr_post e l2 ++ post).
Proof.
  intros Hw Hk Hx Hc [Hj Hr].
  rewrite wf_arr, forallb_app in Hw. cbn [forallb] in Hw. nbool.
  rewrite OUT_arr in Hr; [|lia|reflexivity].
  assert (Hj' : json = (pre ++ arr_pre w l1 e) ++ render (e_val e) ++ arr_post e l2 ++ post).
  { rewrite Hj, render_arr_split. same_text. }
  unfold arr_step in Hr. cbn [cur offset keyst] in Hr. rewrite Hx in Hr.
  replace (S k =? length path)%nat with false in Hr by (symmetry; apply Nat.eqb_neq; lia).
  rewrite (nth_error_nth' path (S k) []) in Hr by lia.
  destruct (render_container_hd _ Hc) as [Ho [rr Er]].
  assert (Hoke := H1). unfold elem_ok in H1. nbool.
  destruct l1 as [|x0 l1'] using rev_ind.
  - cbn [length Z.of_nat] in Hr. cbn [Z.eqb] in Hr.
    assert (Hs : skipn (S (length pre)) json =
                 (w ++ e_pre e) ++ hd 0 (render (e_val e)) :: rr ++ arr_post e l2 ++ post).
    { rewrite Hj'. replace ((pre ++ arr_pre w [] e) ++ render (e_val e) ++ arr_post e l2 ++ post)
        with ((pre ++ [91]) ++ (w ++ e_pre e) ++ render (e_val e) ++ arr_post e l2 ++ post)
        by (unfold arr_pre; cbn [map]; change (jpre []) with (@nil N); same_text).
      rewrite skipn_app_eq by (rewrite length_snoc; reflexivity). rewrite Er at 1. same_text. }
    rewrite Hs in Hr. rewrite arr0_ws in Hr.
    + rewrite Ho in Hr. cbn [bind] in Hr. rewrite Hr.
      replace (S (length pre) + length (w ++ e_pre e))%nat with (length (pre ++ arr_pre w [] e))
        by (unfold arr_pre; cbn [map]; change (jpre []) with (@nil N); len).
      apply AtC_enter; assumption.
    + rewrite ws_ok_app. apply andb_true_iff. split; assumption.
    + apply open_cases in Ho. destruct Ho as [-> | ->]; reflexivity.
  - clear IHl1'.
    replace (Z.of_nat (length (l1' ++ [x0])) =? 0)%Z with false in Hr.
    2:{ symmetry. apply Z.eqb_neq. rewrite app_length. cbn [length]. lia. }
    rewrite Hj' in Hr at 2.
    replace ((pre ++ arr_pre w (l1' ++ [x0]) e) ++ render (e_val e) ++ arr_post e l2 ++ post)
      with (pre ++ 91 :: w ++ jpre (map elem_text (l1' ++ [x0])) ++ e_pre e ++ render (e_val e) ++ arr_post e l2 ++ post)
      in Hr by (unfold arr_pre; same_text).
    rewrite skipn_length_app in Hr. cbn [arr_loop] in Hr.
    change (91 =? 34) with false in Hr. change (91 =? 44) with false in Hr.
    rewrite andb_false_r in Hr. change (is_open 91) with true in Hr. cbv iota in Hr.
    set (T := Z.of_nat (length (l1' ++ [x0]))) in *.
    destruct (Skips_ws _ _ _ _ _ (arr_scan json false T 0) 0 w H (pre ++ [91])
                (jpre (map elem_text (l1' ++ [x0])) ++ e_pre e ++ render (e_val e) ++ arr_post e l2 ++ post)
                1%nat tt) as [Hn1 [[] E1]].
    { rewrite Hj'. unfold arr_pre. same_text. }
    { apply nobs_snoc. discriminate. }
    { lia. }
    rewrite length_snoc in E1. rewrite E1 in Hr. clear E1.
    unfold T in Hr. rewrite arr_found in Hr; [|assumption|assumption| |assumption].
    2:{ rewrite Hj'. unfold arr_pre. same_text. }
    rewrite Er in Hr at 1. rewrite Ho in Hr. cbn [bind] in Hr. rewrite Hr.
    replace (length (((pre ++ [91]) ++ w) ++ jpre (map elem_text (l1' ++ [x0])) ++ e_pre e))
      with (length (pre ++ arr_pre w (l1' ++ [x0]) e)) by (unfold arr_pre; f_equal; same_text).
    apply AtC_enter; assumption.
Qed.

(** Step into a container member of an object. *)
Lemma AtC_obj_step json path r k pre w l1 m l2 post :
  wf (JObj w (l1 ++ m :: l2)) = true -> (S k < length path)%nat ->
  nth k path [] = m_key m -> nokey (m_key m) l1 -> container (m_val m) = true ->
  AtC json path r k pre (JObj w (l1 ++ m :: l2)) post ->
  AtC json path r (S k) (pre ++ obj_pre w l1 m) (m_val m) (obj_post m l2 ++ post).
Proof.
  intros Hw Hk Hx Hnk Hc [Hj (s & e & o & br & Hbr & Hmk & Hr)].
  rewrite wf_obj, forallb_app in Hw. cbn [forallb] in Hw. nbool.
  assert (Hj' : json = (pre ++ obj_pre w l1 m) ++ render (m_val m) ++ obj_post m l2 ++ post).
  { rewrite Hj, render_obj_split. same_text. }
  unshelve epose proof (key_found json path (pre ++ [123]) w l1 m (mem_tail m ++ jpost (map mem_text l2) ++ 125 :: post)
              k (CSt o br (nth k path []) None) s e _ _ _ _ _ _ _) as E1.
  { assumption. } { assumption. } { assumption. } { apply nobs_snoc. discriminate. }
  { rewrite Hj'. unfold obj_pre, obj_kpre, obj_mid, obj_post, mem_head, mem_tail. same_text. }
  { assumption. } { assumption. }
  cbv zeta in E1. rewrite length_snoc in E1.
  replace (S k =? length path)%nat with false in E1 by (symmetry; apply Nat.eqb_neq; lia).
  rewrite map_app in Hr. cbn [map] in Hr. rewrite join_split in Hr. rewrite mem_text_split in Hr.
  unfold RK in Hr.
  replace (w ++ (jpre (map mem_text l1) ++ (mem_head m ++ 58 :: mem_tail m) ++ jpost (map mem_text l2)) ++ 125 :: post)
    with (w ++ jpre (map mem_text l1) ++ mem_head m ++ 58 :: mem_tail m ++ jpost (map mem_text l2) ++ 125 :: post)
    in Hr by same_text.
  rewrite E1 in Hr. clear E1.
  assert (Hokm := H1). unfold mem_ok in H1. nbool.
  destruct (render_container_hd _ Hc) as [Ho [rr Er]].
  set (p := (pre ++ [123]) ++ w ++ jpre (map mem_text l1)) in *.
  unfold mem_tail in Hr. rewrite <- !app_assoc in Hr.
  rewrite key_ws in Hr by assumption.
  assert (Hlen : (S (length (p ++ mem_head m)) + length (m_mid2 m))%nat = length (pre ++ obj_pre w l1 m)).
  { unfold p, obj_pre, obj_kpre, obj_mid, mem_head. len. }
  rewrite Hlen in Hr.
  split; [exact Hj'|].
  destruct (m_val m) as [sc|sc|w' els|w' ms] eqn:Ev; try discriminate Hc.
  - rewrite render_arr in Hr. cbn [app key_loop] in Hr.
    change (length (pre ++ obj_pre w l1 m) <? 0)%nat with false in Hr.
    change (91 =? 34) with false in Hr. change (91 =? 58) with false in Hr.
    rewrite andb_false_r in Hr. change (91 =? 91) with true in Hr. cbv iota in Hr.
    rewrite (nth_error_nth' path (S k) []) in Hr by lia. cbn [bind keyst] in Hr. exact Hr.
  - rewrite render_obj in Hr. cbn [app key_loop] in Hr.
    change (length (pre ++ obj_pre w l1 m) <? 0)%nat with false in Hr.
    change (123 =? 34) with false in Hr. change (123 =? 58) with false in Hr.
    rewrite andb_false_r in Hr. change (123 =? 91) with false in Hr.
    change (123 =? 123) with true in Hr. cbv iota in Hr.
    rewrite (nth_error_nth' path (S k) []) in Hr by lia. cbn [keyst offset brace] in Hr.
    do 4 eexists. split; [exact Hbr|]. split.
    2:{ unfold RK. rewrite Hr. f_equal. f_equal. unfold obj_post. same_text. }
    split; right; [exists (length (p ++ m_pre m)); split; [len|]|].
    + rewrite Hj'. unfold p, obj_pre, obj_kpre, obj_mid. eapply nth_error_app_eq; [|reflexivity]. same_text.
    + rewrite Hj'. unfold p, obj_pre, obj_kpre, obj_mid. eapply nth_error_app_eq; [|reflexivity]. same_text.
Qed.

Lemma focus_container t p pre v post :
  focus t p pre v post -> container v = true -> container t = true.
Proof. intros H Hv. inversion H; subst; [exact Hv|reflexivity|reflexivity]. Qed.

(** Following a path of containers. *)
Lemma AtC_descend json path r q : forall k pre c post pre' c' post',
  wf c = true -> (k + length q < length path)%nat ->
  (forall j, (j < length q)%nat -> nth (k + j) path [] = nth j q []) ->
  focus c q pre' c' post' -> container c' = true ->
  AtC json path r k pre c post ->
  AtC json path r (k + length q) (pre ++ pre') c' (post' ++ post).
Proof.
  induction q as [|x q IH]; intros k pre c post pre' c' post' Hw Hk Hq Hf Hc Hr.
  - inversion Hf; subst. cbn. rewrite Nat.add_0_r, app_nil_r. exact Hr.
  - cbn [length] in *. assert (Hx : nth k path [] = x).
    { specialize (Hq 0%nat ltac:(lia)). rewrite Nat.add_0_r in Hq. exact Hq. }
    assert (Hq' : forall j, (j < length q)%nat -> nth (S k + j) path [] = nth j q []).
    { intros j Hj. specialize (Hq (S j) ltac:(lia)). cbn [nth] in Hq. rewrite <- Hq. f_equal. lia. }
    replace (k + S (length q))%nat with (S k + length q)%nat by lia.
    inversion Hf; subst.
    + rewrite app_assoc. rewrite <- (app_assoc post0).
      apply IH with (c := e_val e); try assumption; [| lia |].
      * rewrite wf_arr, forallb_app in Hw. cbn [forallb] in Hw. nbool. unfold elem_ok in *. nbool. assumption.
      * eapply AtC_arr_step; try eassumption; [lia|]. eapply focus_container; eassumption.
    + rewrite app_assoc. rewrite <- (app_assoc post0).
      apply IH with (c := m_val m); try assumption; [| lia |].
      * rewrite wf_obj, forallb_app in Hw. cbn [forallb] in Hw. nbool. unfold mem_ok in *. nbool. assumption.
      * eapply AtC_obj_step; try eassumption; try lia; try (symmetry; assumption).
        eapply focus_container; eassumption.
Qed.

(** ** The last path element *)

(** [r] found value text [v] after [pre], up to blanks. *)
Definition Found (json : bytes) (r : res cst) (ks : option nat) (pre : bytes) : Prop :=
  exists off br x p0 w0, r = Ok (CSt off br x ks) /\ (0 < off)%nat /\ ws_ok w0 = true /\
    off = length p0 /\ pre = p0 ++ w0.

Lemma AtC_last_arr json path r k pre w l1 e l2 post :
  wf (JArr w (l1 ++ e :: l2)) = true -> S k = length path ->
  atoi (nth k path []) = Some (Z.of_nat (length l1)) ->
  AtC json path r k pre (JArr w (l1 ++ e :: l2)) post ->
  Found json r None (pre ++ arr_pre w l1 e).
Proof.
  intros Hw Hk Hx [Hj Hr].
  rewrite wf_arr, forallb_app in Hw. cbn [forallb] in Hw. nbool.
  rewrite OUT_arr in Hr; [|lia|reflexivity].
  assert (Hj' : json = (pre ++ arr_pre w l1 e) ++ render (e_val e) ++ arr_post e l2 ++ post).
  { rewrite Hj, render_arr_split. same_text. }
  unfold arr_step in Hr. cbn [cur offset keyst brace] in Hr. rewrite Hx in Hr.
  replace (S k =? length path)%nat with true in Hr by (symmetry; apply Nat.eqb_eq; lia).
  assert (Hoke := H1). unfold elem_ok in H1. nbool.
  destruct (render_cons _ H4) as (c & rr & Er & Hcw).
  destruct l1 as [|x0 l1'] using rev_ind.
  - cbn [length Z.of_nat] in Hr. cbn [Z.eqb] in Hr.
    assert (Hs : skipn (S (length pre)) json =
                 (w ++ e_pre e) ++ c :: rr ++ arr_post e l2 ++ post).
    { rewrite Hj'. replace ((pre ++ arr_pre w [] e) ++ render (e_val e) ++ arr_post e l2 ++ post)
        with ((pre ++ [91]) ++ (w ++ e_pre e) ++ render (e_val e) ++ arr_post e l2 ++ post)
        by (unfold arr_pre; cbn [map]; change (jpre []) with (@nil N); same_text).
      rewrite skipn_app_eq by (rewrite length_snoc; reflexivity). rewrite Er at 1. same_text. }
    rewrite Hs in Hr. rewrite arr0_ws in Hr.
    + destruct (is_open c) eqn:Eo; cbn [bind] in Hr; rewrite OUT_end in Hr by lia.
      * do 3 eexists. exists (pre ++ arr_pre w [] e), []. split; [exact Hr|].
        split; [lia|]. split; [reflexivity|]. split; [|symmetry; apply app_nil_r].
        unfold arr_pre. cbn [map]. change (jpre []) with (@nil N). len.
      * do 3 eexists. exists (pre ++ [91]), (w ++ e_pre e). split; [exact Hr|].
        split; [lia|]. split; [rewrite ws_ok_app; apply andb_true_iff; split; assumption|].
        split; [rewrite length_snoc; reflexivity|].
        unfold arr_pre. cbn [map]. change (jpre []) with (@nil N). same_text.
    + rewrite ws_ok_app. apply andb_true_iff. split; assumption.
    + exact Hcw.
  - clear IHl1'.
    replace (Z.of_nat (length (l1' ++ [x0])) =? 0)%Z with false in Hr.
    2:{ symmetry. apply Z.eqb_neq. rewrite app_length. cbn [length]. lia. }
    rewrite Hj' in Hr at 2.
    replace ((pre ++ arr_pre w (l1' ++ [x0]) e) ++ render (e_val e) ++ arr_post e l2 ++ post)
      with (pre ++ 91 :: w ++ jpre (map elem_text (l1' ++ [x0])) ++ e_pre e ++ render (e_val e) ++ arr_post e l2 ++ post)
      in Hr by (unfold arr_pre; same_text).
    rewrite skipn_length_app in Hr. cbn [arr_loop] in Hr.
    change (91 =? 34) with false in Hr. change (91 =? 44) with false in Hr.
    rewrite andb_false_r in Hr. change (is_open 91) with true in Hr. cbv iota in Hr.
    set (T := Z.of_nat (length (l1' ++ [x0]))) in *.
    destruct (Skips_ws _ _ _ _ _ (arr_scan json true T 0) 0 w H (pre ++ [91])
                (jpre (map elem_text (l1' ++ [x0])) ++ e_pre e ++ render (e_val e) ++ arr_post e l2 ++ post)
                1%nat tt) as [Hn1 [[] E1]].
    { rewrite Hj'. unfold arr_pre. same_text. }
    { apply nobs_snoc. discriminate. }
    { lia. }
    rewrite length_snoc in E1. rewrite E1 in Hr. clear E1.
    unfold T in Hr. rewrite arr_found in Hr; [|assumption|assumption| |assumption].
    2:{ rewrite Hj'. unfold arr_pre. same_text. }
    cbn [bind] in Hr. rewrite OUT_end in Hr by lia.
    do 3 eexists. exists (((pre ++ [91]) ++ w) ++ jpre (map elem_text (l1' ++ [x0]))), (e_pre e).
    split; [exact Hr|]. split; [rewrite !app_length; cbn [length]; lia|].
    split; [assumption|]. split; [reflexivity|]. unfold arr_pre. same_text.
Qed.

Lemma AtC_last_obj json path r k pre w l1 m l2 post :
  wf (JObj w (l1 ++ m :: l2)) = true -> S k = length path ->
  nth k path [] = m_key m -> nokey (m_key m) l1 ->
  AtC json path r k pre (JObj w (l1 ++ m :: l2)) post ->
  Found json r (Some (length (pre ++ obj_kpre w l1 m))) (pre ++ obj_pre w l1 m).
Proof.
  intros Hw Hk Hx Hnk [Hj (s & e & o & br & Hbr & Hmk & Hr)].
  rewrite wf_obj, forallb_app in Hw. cbn [forallb] in Hw. nbool.
  assert (Hj' : json = (pre ++ obj_pre w l1 m) ++ render (m_val m) ++ obj_post m l2 ++ post).
  { rewrite Hj, render_obj_split. same_text. }
  unshelve epose proof (key_found json path (pre ++ [123]) w l1 m (mem_tail m ++ jpost (map mem_text l2) ++ 125 :: post)
              k (CSt o br (nth k path []) None) s e _ _ _ _ _ _ _) as E1.
  { assumption. } { assumption. } { assumption. } { apply nobs_snoc. discriminate. }
  { rewrite Hj'. unfold obj_pre, obj_kpre, obj_mid, obj_post, mem_head, mem_tail. same_text. }
  { assumption. } { assumption. }
  cbv zeta in E1. rewrite length_snoc in E1.
  replace (S k =? length path)%nat with true in E1 by (symmetry; apply Nat.eqb_eq; lia).
  rewrite map_app in Hr. cbn [map] in Hr. rewrite join_split in Hr. rewrite mem_text_split in Hr.
  unfold RK in Hr.
  replace (w ++ (jpre (map mem_text l1) ++ (mem_head m ++ 58 :: mem_tail m) ++ jpost (map mem_text l2)) ++ 125 :: post)
    with (w ++ jpre (map mem_text l1) ++ mem_head m ++ 58 :: mem_tail m ++ jpost (map mem_text l2) ++ 125 :: post)
    in Hr by same_text.
  rewrite E1 in Hr. clear E1. cbn [bind brace cur] in Hr. rewrite OUT_end in Hr by lia.
  assert (Hokm := H1). unfold mem_ok in H1. nbool.
  unfold Found.
  replace (length (((pre ++ [123]) ++ w ++ jpre (map mem_text l1)) ++ m_pre m ++ [34]))
    with (length (pre ++ obj_kpre w l1 m)) in Hr by (unfold obj_kpre; f_equal; same_text).
  do 3 eexists. exists ((((pre ++ [123]) ++ w ++ jpre (map mem_text l1)) ++ mem_head m) ++ [58]), (m_mid2 m).
  split; [exact Hr|]. split; [lia|]. split; [assumption|].
  split; [rewrite length_snoc; reflexivity|].
  unfold obj_pre, obj_kpre, obj_mid, mem_head. same_text.
Qed.

(** ** End of the value *)

Definition terminated (post : bytes) : Prop :=
  exists c r, post = c :: r /\ (space c || (c =? 44) || (c =? 93) || (c =? 125)) = true.

Lemma term_ws w post : ws_ok w = true -> terminated post -> terminated (w ++ post).
Proof.
  intros Hw Ht. destruct w as [|c w]; [exact Ht|]. exists c, (w ++ post). split; [reflexivity|].
  cbn in Hw. nbool. rewrite <- is_ws_space, H. reflexivity.
Qed.

Lemma term_jpost l c post : c = 93 \/ c = 125 -> terminated (jpost l ++ c :: post).
Proof.
  intro Hc. destruct l as [|x l].
  - cbn. exists c, post. split; [reflexivity|]. destruct Hc; subst; reflexivity.
  - rewrite jpost_cons. cbn [app]. eexists 44, _. split; [reflexivity|]. reflexivity.
Qed.

Lemma term_arr e l2 post : elem_ok e = true -> terminated (arr_post e l2 ++ post).
Proof.
  unfold elem_ok, arr_post. intro H. nbool. rewrite <- app_assoc. apply term_ws; [assumption|].
  rewrite <- app_assoc. apply term_jpost. left. reflexivity.
Qed.

Lemma term_obj m l2 post : mem_ok m = true -> terminated (obj_post m l2 ++ post).
Proof.
  unfold mem_ok, obj_post. intro H. nbool. rewrite <- app_assoc. apply term_ws; [assumption|].
  rewrite <- app_assoc. apply term_jpost. right. reflexivity.
Qed.

Lemma close_value json pre v post :
  wf v = true -> container v = true -> json = pre ++ render v ++ post ->
  close_loop json (render v ++ post) (length pre) 0 false = Some (length (pre ++ render v)).
Proof.
  intros Hw Hc Hj. pose proof (close_scan json) as SC.
  destruct v as [s|s|w els|w ms]; try discriminate Hc.
  - rewrite wf_arr in Hw. nbool. rewrite render_arr in *. cbn [app] in *. cbn [close_loop].
    change (91 =? 34) with false. change (is_open 91) with true. cbv iota.
    (* commas at level 1 do nothing here, so the whole body is passed over at level 1 *)
    assert (Hbody : forall l p q, forallb elem_ok l = true -> nobs p -> json = p ++ join (map elem_text l) ++ q ->
      nobs (p ++ join (map elem_text l)) /\
      close_loop json (join (map elem_text l) ++ q) (length p) 1 false =
      close_loop json q (length (p ++ join (map elem_text l))) 1 false).
    { clear -SC. induction l as [|e l IH]; intros p q Hok Hn Hj.
      - cbn. rewrite app_nil_r. split; [exact Hn|reflexivity].
      - cbn [forallb] in Hok. nbool. destruct l as [|e' l].
        + cbn [map join] in *.
          destruct (Skips_elem _ _ _ _ _ SC 0 e H p q 1%nat tt Hj Hn ltac:(lia)) as [Hn1 [[] E1]].
          split; [exact Hn1|exact E1].
        + change (join (map elem_text (e :: e' :: l))) with (elem_text e ++ 44 :: join (map elem_text (e' :: l))) in *.
          destruct (Skips_elem _ _ _ _ _ SC 0 e H p (44 :: join (map elem_text (e' :: l)) ++ q) 1%nat tt)
            as [Hn1 [[] E1]].
          { rewrite Hj. same_text. } { exact Hn. } { lia. }
          destruct (IH ((p ++ elem_text e) ++ [44]) q) as [Hn2 E2].
          { assumption. } { apply nobs_snoc. discriminate. } { rewrite Hj. same_text. }
          split.
          { replace (p ++ elem_text e ++ 44 :: join (map elem_text (e' :: l)))
              with (((p ++ elem_text e) ++ [44]) ++ join (map elem_text (e' :: l))) by same_text.
            exact Hn2. }
          replace ((elem_text e ++ 44 :: join (map elem_text (e' :: l))) ++ q)
            with (elem_text e ++ 44 :: join (map elem_text (e' :: l)) ++ q) by same_text.
          rewrite E1. cbn [close_loop]. change (44 =? 34) with false.
          change (is_open 44) with false. change (is_close 44) with false. cbv iota.
          rewrite length_snoc in E2. rewrite E2. f_equal. len. }
    destruct (Skips_ws _ _ _ _ _ SC 0 w H (pre ++ [91]) (join (map elem_text els) ++ 93 :: post) 1%nat tt)
      as [Hn1 [[] E1]].
    { rewrite Hj. same_text. } { apply nobs_snoc; discriminate. } { lia. }
    destruct (Hbody els ((pre ++ [91]) ++ w) (93 :: post) H0 Hn1) as [Hn2 E2].
    { rewrite Hj. same_text. }
    rewrite length_snoc in E1. lassoc. rewrite E1, E2. cbn. f_equal. len.
  - rewrite wf_obj in Hw. nbool. rewrite render_obj in *. cbn [app] in *. cbn [close_loop].
    change (123 =? 34) with false. change (is_open 123) with true. cbv iota.
    assert (Hmem : forall m p q, mem_ok m = true -> nobs p -> json = p ++ mem_text m ++ q ->
      nobs (p ++ mem_text m) /\
      close_loop json (mem_text m ++ q) (length p) 1 false = close_loop json q (length (p ++ mem_text m)) 1 false).
    { clear -SC. intros m p q Hok Hn Hj. unfold mem_ok in Hok. nbool. rewrite mem_text_split in *.
      assert (S1 : Skips json _ unit (fun r i q l _ => close_loop json r i l q) 1 0 (mem_head m)).
      { unfold mem_head. apply Skips_app; [eapply Skips_ws; eassumption|].
        change (34 :: m_key m ++ 34 :: m_mid m) with (34 :: m_key m ++ [34] ++ m_mid m). rewrite app_assoc.
        apply (Skips_app _ _ _ _ _ 0 (34 :: m_key m ++ [34])); [eapply Skips_string; eassumption|eapply Skips_ws; eassumption]. }
      assert (S2 : Skips json _ unit (fun r i q l _ => close_loop json r i l q) 1 0 (mem_tail m)).
      { unfold mem_tail. apply Skips_app; [eapply Skips_ws; eassumption|].
        apply Skips_app; [eapply Skips_val; eassumption|eapply Skips_ws; eassumption]. }
      destruct (S1 p (58 :: mem_tail m ++ q) 1%nat tt) as [Hn1 [[] E1]].
      { rewrite Hj. same_text. } { exact Hn. } { lia. }
      destruct (S2 ((p ++ mem_head m) ++ [58]) q 1%nat tt) as [Hn2 [[] E2]].
      { rewrite Hj. same_text. } { apply nobs_snoc; discriminate. } { lia. }
      split.
      { replace (p ++ mem_head m ++ 58 :: mem_tail m) with (((p ++ mem_head m) ++ [58]) ++ mem_tail m) by same_text.
        exact Hn2. }
      lassoc. rewrite E1. cbn [close_loop]. change (58 =? 34) with false.
      change (is_open 58) with false. change (is_close 58) with false. cbv iota.
      rewrite length_snoc in E2. rewrite E2. f_equal. len. }
    assert (Hbody : forall l p q, forallb mem_ok l = true -> nobs p -> json = p ++ join (map mem_text l) ++ q ->
      nobs (p ++ join (map mem_text l)) /\
      close_loop json (join (map mem_text l) ++ q) (length p) 1 false =
      close_loop json q (length (p ++ join (map mem_text l))) 1 false).
    { clear -Hmem. induction l as [|e l IH]; intros p q Hok Hn Hj.
      - cbn. rewrite app_nil_r. split; [exact Hn|reflexivity].
      - cbn [forallb] in Hok. nbool. destruct l as [|e' l].
        + cbn [map join] in *. apply Hmem; assumption.
        + change (join (map mem_text (e :: e' :: l))) with (mem_text e ++ 44 :: join (map mem_text (e' :: l))) in *.
          destruct (Hmem e p (44 :: join (map mem_text (e' :: l)) ++ q)) as [Hn1 E1].
          { assumption. } { exact Hn. } { rewrite Hj. same_text. }
          destruct (IH ((p ++ mem_text e) ++ [44]) q) as [Hn2 E2].
          { assumption. } { apply nobs_snoc. discriminate. } { rewrite Hj. same_text. }
          split.
          { replace (p ++ mem_text e ++ 44 :: join (map mem_text (e' :: l)))
              with (((p ++ mem_text e) ++ [44]) ++ join (map mem_text (e' :: l))) by same_text.
            exact Hn2. }
          replace ((mem_text e ++ 44 :: join (map mem_text (e' :: l))) ++ q)
            with (mem_text e ++ 44 :: join (map mem_text (e' :: l)) ++ q) by same_text.
          rewrite E1. cbn [close_loop]. change (44 =? 34) with false.
          change (is_open 44) with false. change (is_close 44) with false. cbv iota.
          rewrite length_snoc in E2. rewrite E2. f_equal. len. }
    destruct (Skips_ws _ _ _ _ _ SC 0 w H (pre ++ [123]) (join (map mem_text ms) ++ 125 :: post) 1%nat tt)
      as [Hn1 [[] E1]].
    { rewrite Hj. same_text. } { apply nobs_snoc; discriminate. } { lia. }
    destruct (Hbody ms ((pre ++ [123]) ++ w) (125 :: post) H0 Hn1) as [Hn2 E2].
    { rewrite Hj. same_text. }
    rewrite length_snoc in E1. lassoc. rewrite E1, E2. cbn. f_equal. len.
Qed.

Lemma quote_value pre s post i :
  str_ok s = true -> i = length pre -> quote_loop (s ++ 34 :: post) i = Some (length (pre ++ s)).
Proof.
  intros Hs ->. remember (length s) as n eqn:Hn. assert (H : (length s <= n)%nat) by lia. clear Hn.
  revert pre s Hs H. induction n as [|n IH]; intros pre [|c s] Hs Hl; cbn [length] in Hl; try lia.
  - cbn. rewrite app_nil_r. reflexivity.
  - cbn. rewrite app_nil_r. reflexivity.
  - cbn [str_ok] in Hs. cbn [app quote_loop].
    destruct (c =? 34); [discriminate|]. destruct (c =? 92).
    + destruct s as [|d s]; [discriminate|]. cbn [app].
      replace (S (S (length pre))) with (length (pre ++ [c; d])) by len.
      rewrite IH; [f_equal; len|exact Hs|cbn [length] in Hl; lia].
    + rewrite <- (length_snoc pre c). rewrite IH; [f_equal; len|exact Hs|lia].
Qed.

Lemma token_value s post i :
  Forall (fun c => is_token_char c = true) s -> terminated post ->
  token_loop (s ++ post) i = Some (i + length s)%nat.
Proof.
  intros Hs Ht. revert i. induction Hs as [|c s Hc Hs IH]; intro i.
  - destruct Ht as (c & r & -> & Hc). cbn. rewrite Hc. f_equal. lia.
  - cbn [app token_loop]. apply token_plain in Hc. destruct Hc as (Hp & _ & Hw).
    apply plain_neq in Hp. rewrite <- is_ws_space, Hw, !eqb_false by tauto. cbn [orb].
    rewrite IH. f_equal. cbn [length]. lia.
Qed.

(** Offset of the value proper: past the opening quote for a string. *)
Definition qoff (v : jv) : nat := match v with JString _ => 1%nat | _ => O end.

Lemma value_end_spec json ks pre v post :
  wf v = true -> json = pre ++ render v ++ post -> terminated post ->
  value_end json ks (length pre) =
  Ok (ks, (length pre + qoff v)%nat, (length pre + qoff v + length (bare v))%nat).
Proof.
  intros Hw Hj Ht. unfold value_end.
  destruct (render_cons v Hw) as (c & r & Er & Hc).
  rewrite (at_app_eq json pre c (r ++ post)); [|rewrite Hj, Er; same_text|reflexivity].
  cbn [bind].
  assert (Hs : skipn (length pre) json = render v ++ post) by (rewrite Hj; apply skipn_length_app).
  destruct v as [s|s|w els|w ms].
  - cbn [render] in *. apply scalar_ok_inv in Hw. destruct Hw as [Hne Hw].
    assert (Htc : is_token_char c = true) by (subst s; inversion Hw; assumption).
    apply token_plain in Htc. destruct Htc as (Hp & _ & _).
    rewrite (plain_not_open _ Hp). apply plain_neq in Hp. rewrite eqb_false by tauto.
    rewrite Hs, (token_value s post (length pre) Hw Ht).
    replace (length pre + length s =? length pre)%nat with false.
    2:{ symmetry. apply Nat.eqb_neq. subst s. cbn [length]. lia. }
    cbn [qoff bare render]. do 3 f_equal; lia.
  - cbn [render] in Er. injection Er as <- <-.
    change (is_open 34) with false. change (34 =? 34) with true. cbv iota.
    assert (Hs2 : skipn (S (length pre)) json = s ++ 34 :: post).
    { rewrite Hj. cbn [render]. replace (pre ++ (34 :: s ++ [34]) ++ post) with ((pre ++ [34]) ++ s ++ 34 :: post) by same_text.
      apply skipn_app_eq. rewrite length_snoc. reflexivity. }
    rewrite Hs2. rewrite (quote_value (pre ++ [34]) s post _ Hw) by (rewrite length_snoc; reflexivity).
    cbn [qoff bare]. do 2 f_equal; [f_equal; lia|len].
  - assert (c = 91) by (rewrite render_arr in Er; injection Er; congruence). subst c.
    change (is_open 91) with true. cbv iota. rewrite Hs.
    rewrite (close_value json pre _ post Hw eq_refl Hj). cbn [qoff bare]. do 2 f_equal; [f_equal; lia|len].
  - assert (c = 123) by (rewrite render_obj in Er; injection Er; congruence). subst c.
    change (is_open 123) with true. cbv iota. rewrite Hs.
    rewrite (close_value json pre _ post Hw eq_refl Hj). cbn [qoff bare]. do 2 f_equal; [f_equal; lia|len].
Qed.

(** ** Main theorem on [core] *)

Lemma hd_app (l r : bytes) d : l <> [] -> hd d (l ++ r) = hd d l.
Proof. destruct l; [contradiction|reflexivity]. Qed.

(** After skipping leading blanks the scan stands at the root. *)
Lemma core_start d js p0 path :
  wf_doc d = true -> container (d_val d) = true ->
  core (text d) js (p0 :: path) =
  bind (OUT (text d) (p0 :: path) 0 (CSt (length (d_pre d)) (hd 0 (render (d_val d))) p0 None))
  (fun st => if (offset st =? 0)%nat then Err (EBadJSON 0)
             else bind (skip_space (skipn (offset st) (text d)) (offset st))
                  (fun off' => if js then Ok (keyst st, off', O) else value_end (text d) (keyst st) off')).
Proof.
  intros Hw Hc. unfold wf_doc in Hw. nbool. unfold core.
  destruct (render_container_hd _ Hc) as [Ho [rr Er]].
  assert (Hlen : (2 <= length (render (d_val d)))%nat).
  { destruct (d_val d); try discriminate Hc; [rewrite render_arr|rewrite render_obj];
      cbn [length]; rewrite !app_length; cbn [length]; lia. }
  replace (length (text d) <? 2)%nat with false.
  2:{ symmetry. apply Nat.ltb_ge. unfold text. rewrite !app_length. lia. }
  assert (Ht : text d = d_pre d ++ hd 0 (render (d_val d)) :: rr ++ d_post d).
  { unfold text. rewrite Er at 1. same_text. }
  assert (Hws : is_ws (hd 0 (render (d_val d))) = false).
  { apply open_cases in Ho. destruct Ho as [-> | ->]; reflexivity. }
  rewrite Ht at 1. rewrite skip_space_ws by assumption. cbn [bind Nat.add].
  rewrite Ht at 1. rewrite at_app. cbn [bind]. reflexivity.
Qed.

(** [Found] and the value afterwards give the result of [core]. *)
Lemma core_finish json r ks pre v post (js : bool) :
  wf v = true -> json = pre ++ render v ++ post -> terminated post -> Found json r ks pre ->
  bind r (fun st => if (offset st =? 0)%nat then Err (EBadJSON 0)
             else bind (skip_space (skipn (offset st) json) (offset st))
                  (fun off' => if js then Ok (keyst st, off', O) else value_end json (keyst st) off')) =
  if js then Ok (ks, length pre, O)
  else Ok (ks, (length pre + qoff v)%nat, (length pre + qoff v + length (bare v))%nat).
Proof.
  intros Hw Hj Ht (off & br & x & p0 & w0 & -> & Hoff & Hw0 & Hl & ->). cbn [bind offset keyst].
  replace (off =? 0)%nat with false by (symmetry; apply Nat.eqb_neq; lia).
  destruct (render_cons v Hw) as (c & rr & Er & Hc).
  assert (Hs : skipn off json = w0 ++ c :: rr ++ post).
  { rewrite Hj, Er, <- app_assoc. rewrite skipn_app_eq by exact Hl. same_text. }
  rewrite Hs, skip_space_ws by assumption. cbn [bind].
  replace (off + length w0)%nat with (length (p0 ++ w0)) by (rewrite app_length, Hl; reflexivity).
  destruct js; [reflexivity|]. eapply value_end_spec; eassumption.
Qed.

Lemma nth_app_path (q : list bytes) x rest j : (j < length q)%nat -> nth (0 + j) (q ++ x :: rest) [] = nth j q [].
Proof. intro H. cbn [Nat.add]. apply app_nth1. exact H. Qed.

Lemma nth_app_at (q : list bytes) x rest : nth (length q) (q ++ x :: rest) [] = x.
Proof. rewrite app_nth2 by lia. rewrite Nat.sub_diag. reflexivity. Qed.

(** Reaching a container from the start of the document, with [x] the next step. *)
Lemma core_reach d q x rest pre c post :
  wf_doc d = true -> focus (d_val d) q pre c post -> container c = true ->
  exists r, AtC (text d) (q ++ x :: rest) r (length q) (d_pre d ++ pre) c (post ++ d_post d) /\
  forall js : bool, core (text d) js (q ++ x :: rest) =
  bind r (fun st => if (offset st =? 0)%nat then Err (EBadJSON 0)
             else bind (skip_space (skipn (offset st) (text d)) (offset st))
                  (fun off' => if js then Ok (keyst st, off', O) else value_end (text d) (keyst st) off')).
Proof.
  intros Hw Hf Hc.
  assert (Hc0 : container (d_val d) = true) by (eapply focus_container; eassumption).
  destruct (q ++ x :: rest) as [|p0 path] eqn:E; [destruct q; discriminate|].
  eexists. split; [|intro js; apply core_start; assumption].
  assert (Hlen : length (p0 :: path) = (length q + S (length rest))%nat)
    by (rewrite <- E, app_length; reflexivity).
  change (length q) with (0 + length q)%nat.
  apply AtC_descend with (c := d_val d).
  - unfold wf_doc in Hw. nbool. assumption.
  - rewrite Hlen. lia.
  - intros j Hjq. rewrite <- E. apply nth_app_path. exact Hjq.
  - exact Hf.
  - exact Hc.
  - change p0 with (nth 0 (p0 :: path) (@nil N)) at 3. apply AtC_enter.
    + rewrite Hlen. lia.
    + exact Hc0.
    + reflexivity.
Qed.

Theorem core_arr d q x w l1 e l2 pre post (js : bool) :
  wf_doc d = true -> focus (d_val d) q pre (JArr w (l1 ++ e :: l2)) post ->
  atoi x = Some (Z.of_nat (length l1)) ->
  core (text d) js (q ++ [x]) =
  let p := d_pre d ++ pre ++ arr_pre w l1 e in
  if js then Ok (None, length p, O)
  else Ok (None, (length p + qoff (e_val e))%nat, (length p + qoff (e_val e) + length (bare (e_val e)))%nat).
Proof.
  intros Hw Hf Hx. cbv zeta.
  destruct (core_reach d q x [] pre _ post Hw Hf eq_refl) as (r & Hat & Hcore).
  rewrite Hcore. clear Hcore.
  assert (Hwc : wf (JArr w (l1 ++ e :: l2)) = true).
  { eapply focus_wf; [exact Hf|]. unfold wf_doc in Hw. nbool. assumption. }
  assert (Hoke : elem_ok e = true).
  { rewrite wf_arr, forallb_app in Hwc. cbn [forallb] in Hwc. nbool. assumption. }
  rewrite (app_assoc (d_pre d)).
  apply core_finish with (post := arr_post e l2 ++ post ++ d_post d).
  - unfold elem_ok in Hoke. nbool. assumption.
  - destruct Hat as [Hj _]. rewrite Hj at 1. rewrite render_arr_split. same_text.
  - apply term_arr. exact Hoke.
  - eapply AtC_last_arr; [exact Hwc| | |exact Hat].
    + rewrite length_snoc. reflexivity.
    + rewrite app_nth2 by lia. rewrite Nat.sub_diag. exact Hx.
Qed.

Theorem core_obj d q w l1 m l2 pre post (js : bool) :
  wf_doc d = true -> focus (d_val d) q pre (JObj w (l1 ++ m :: l2)) post ->
  nokey (m_key m) l1 ->
  core (text d) js (q ++ [m_key m]) =
  let kp := d_pre d ++ pre ++ obj_kpre w l1 m in
  let p := d_pre d ++ pre ++ obj_pre w l1 m in
  if js then Ok (Some (length kp), length p, O)
  else Ok (Some (length kp), (length p + qoff (m_val m))%nat,
           (length p + qoff (m_val m) + length (bare (m_val m)))%nat).
Proof.
  intros Hw Hf Hx. cbv zeta.
  destruct (core_reach d q (m_key m) [] pre _ post Hw Hf eq_refl) as (r & Hat & Hcore).
  rewrite Hcore. clear Hcore.
  assert (Hwc : wf (JObj w (l1 ++ m :: l2)) = true).
  { eapply focus_wf; [exact Hf|]. unfold wf_doc in Hw. nbool. assumption. }
  assert (Hokm : mem_ok m = true).
  { rewrite wf_obj, forallb_app in Hwc. cbn [forallb] in Hwc. nbool. assumption. }
  rewrite !(app_assoc (d_pre d)).
  apply core_finish with (post := obj_post m l2 ++ post ++ d_post d).
  - unfold mem_ok in Hokm. nbool. assumption.
  - destruct Hat as [Hj _]. rewrite Hj at 1. rewrite render_obj_split. same_text.
  - apply term_obj. exact Hokm.
  - eapply AtC_last_obj; [exact Hwc| | |exact Hx|exact Hat].
    + rewrite length_snoc. reflexivity.
    + rewrite app_nth2 by lia. rewrite Nat.sub_diag. reflexivity.
Qed.

(** The key start reported for a path: where the member's key begins, if the last step is a key. *)
Theorem core_present d p pre v post :
  wf_doc d = true -> p <> [] -> focus (d_val d) p pre v post ->
  exists ks, forall js : bool,
  core (text d) js p =
  if js then Ok (ks, length (d_pre d ++ pre), O)
  else Ok (ks, (length (d_pre d ++ pre) + qoff v)%nat,
           (length (d_pre d ++ pre) + qoff v + length (bare v))%nat).
Proof.
  intros Hw Hp Hf. destruct (exists_last Hp) as (q & x & ->).
  apply focus_split in Hf. destruct Hf as (pre1 & c & post1 & pre2 & post2 & Hf1 & Hf2 & -> & ->).
  inversion Hf2; subst.
  - match goal with H : focus _ [] _ _ _ |- _ => inversion H; subst end.
    exists None. intro js. rewrite (core_arr d q x w l1 e l2 pre1 post1 js Hw Hf1) by assumption.
    cbv zeta. rewrite !app_nil_r. reflexivity.
  - match goal with H : focus _ [] _ _ _ |- _ => inversion H; subst end.
    eexists. intro js. rewrite (core_obj d q w l1 m l2 pre1 post1 js Hw Hf1) by assumption.
    cbv zeta. rewrite !app_nil_r. reflexivity.
Qed.
